{"id": "C01", "title": "Output shapes", "statement": "A successful sites/regular_grid/transect call with K times, J latitudes and I longitudes yields zenith and azimuth of shape (K,J) / (K,J,I) / (K,) and ecf, eot, declination of shape (K,), so that the container's own internal shape assertions can never fire.", "quantifier": "every number of times and locations, every algorithm, engine, refraction flag, every pattern of NaT times", "why_tests_cant": "shape bugs show only at particular size combinations (e.g. J=1, K=0, J<>I); tests use one size", "anchors": ["src/sunwhere/_core.py:evaluate", "src/sunwhere/usecases.py:sites", "src/sunwhere/usecases.py:regular_grid", "src/sunwhere/usecases.py:transect", "src/sunwhere/_base.py:Sunpos.__init__"]}
{"id": "C02", "title": "Sites are computed independently", "statement": "The (k,j) entry of sites(times, lats, lons) is what sites would return for that single time and that single location alone: no other time or location influences it.", "quantifier": "all time lists, location lists, indices, algorithms, engines", "why_tests_cant": "needs all batch contents, tests sample a few", "anchors": ["src/sunwhere/usecases.py:sites", "src/sunwhere/_core.py:evaluate", "src/sunwhere/libspa/ne_iqbal.py:_sunpos_two_dimensional", "src/sunwhere/libspa/ne_nrel.py:_sunpos_two_dimensional", "src/sunwhere/libspa/ne_psa.py:_sunpos_two_dimensional", "src/sunwhere/libspa/ne_soltrack.py:_sunpos_two_dimensional", "src/sunwhere/libspa/py_iqbal.py:_sunpos_two_dimensional", "src/sunwhere/libspa/py_psa.py:_sunpos_two_dimensional", "src/sunwhere/libspa/py_soltrack.py:_sunpos_two_dimensional"]}
{"id": "C03", "title": "regular_grid agrees with sites on the mesh", "statement": "The (k,j,i) entry of regular_grid(times,lats,lons) equals the value sites computes at time k for location (lats[j], lons[i]), for every algorithm and engine.", "quantifier": "all grids and indices", "why_tests_cant": "the project's test compares a 1x1 grid with tolerance 2 degrees", "anchors": ["src/sunwhere/usecases.py:regular_grid", "src/sunwhere/libspa/ne_iqbal.py:_sunpos_three_dimensional", "src/sunwhere/libspa/ne_nrel.py:_sunpos_three_dimensional", "src/sunwhere/libspa/ne_psa.py:_sunpos_three_dimensional", "src/sunwhere/libspa/ne_soltrack.py:_sunpos_three_dimensional", "src/sunwhere/libspa/py_iqbal.py:_sunpos_three_dimensional", "src/sunwhere/libspa/py_psa.py:_sunpos_three_dimensional", "src/sunwhere/libspa/py_soltrack.py:_sunpos_three_dimensional"]}
{"id": "C04", "title": "transect agrees with sites along the track", "statement": "The k-th entry of transect(times,lats,lons) equals the value sites computes at time k for location (lats[k], lons[k]), for every algorithm and engine.", "quantifier": "all transects and indices", "why_tests_cant": "the project's test compares length-1 transects with tolerance 2 degrees", "anchors": ["src/sunwhere/usecases.py:transect", "src/sunwhere/libspa/ne_iqbal.py:_sunpos_one_dimensional", "src/sunwhere/libspa/ne_nrel.py:_sunpos_one_dimensional", "src/sunwhere/libspa/ne_psa.py:_sunpos_one_dimensional", "src/sunwhere/libspa/ne_soltrack.py:_sunpos_one_dimensional", "src/sunwhere/libspa/py_iqbal.py:_sunpos_one_dimensional", "src/sunwhere/libspa/py_psa.py:_sunpos_one_dimensional", "src/sunwhere/libspa/py_soltrack.py:_sunpos_one_dimensional"]}
{"id": "C05", "title": "Time-list equivariance", "statement": "Evaluating a concatenation (or any re-ordering, repetition or selection) of times gives the corresponding concatenation (re-ordering, ...) of the result rows.", "quantifier": "all time lists and index selections", "why_tests_cant": "infinitely many orderings", "anchors": ["src/sunwhere/_core.py:evaluate"]}
{"id": "C06", "title": "NaT times give NaN rows and nothing else", "statement": "Where an input time is NaT, ecf, eot, declination, zenith and azimuth are NaN in that row; all other rows are the values obtained with the NaT entries deleted from the input (for transects together with their coordinates).", "quantifier": "all NaT patterns", "why_tests_cant": "2^K patterns", "anchors": ["src/sunwhere/_core.py:evaluate"]}
{"id": "C07", "title": "NaN coordinates are accepted and stay local", "statement": "NaN latitudes/longitudes pass validation, make zenith and azimuth NaN in their own cells (longitude and latitude alike), and leave every other cell and all location-independent outputs unchanged.", "quantifier": "all positions of NaN coordinates, all algorithms", "why_tests_cant": "all NaN patterns and algorithms", "anchors": ["src/sunwhere/utils/validate.py:check_timelatlon", "src/sunwhere/libspa/ne_iqbal.py", "src/sunwhere/libspa/ne_nrel.py", "src/sunwhere/libspa/ne_psa.py", "src/sunwhere/libspa/ne_soltrack.py", "src/sunwhere/libspa/py_iqbal.py", "src/sunwhere/libspa/py_psa.py", "src/sunwhere/libspa/py_soltrack.py"]}
{"id": "C08", "title": "Coordinate validation is exact", "statement": "A call with otherwise good arguments raises ValueError for its coordinates iff some non-NaN longitude is outside [-180,180) or some non-NaN latitude is outside [-90,90]; no out-of-range location is ever evaluated.", "quantifier": "all coordinate lists", "why_tests_cant": "boundary behaviour over all reals and positions in the list", "anchors": ["src/sunwhere/utils/validate.py:check_timelatlon"]}
{"id": "C09", "title": "Documented longitude range", "statement": "The docstrings promise longitudes in [-180, 180] are accepted.", "quantifier": "all longitudes in the documented closed range", "why_tests_cant": "needs the boundary value, and agreement of docs with code", "anchors": ["src/sunwhere/usecases.py:sites", "src/sunwhere/utils/validate.py:check_timelatlon"]}
{"id": "C10", "title": "Shape mismatches are always rejected", "statement": "sites raises ValueError whenever the numbers of latitudes and longitudes differ, transect whenever the three lengths are not all equal; arrays of 2 or more dimensions are rejected by all three; equal shapes are never rejected for their shape.", "quantifier": "all lengths", "why_tests_cant": "all length combinations", "anchors": ["src/sunwhere/usecases.py:sites", "src/sunwhere/usecases.py:transect", "src/sunwhere/utils/validate.py:check_dimensions"]}
{"id": "C11", "title": "Algorithm/engine dispatch", "statement": "Exactly seven algorithm-engine pairs are accepted. With any other algorithm or engine string evaluate raises ValueError whatever the other arguments, and so do the use cases unless times has two or more dimensions (TypeError) ; an accepted pair runs its own implementation, and never that of another pair.", "quantifier": "all strings", "why_tests_cant": "infinitely many strings, and which implementation runs is not observable in a unit test", "anchors": ["src/sunwhere/_core.py:evaluate", "src/sunwhere/_core.py:__ALGORITHMS__"]}
{"id": "C12", "title": "Sub-second parts are floored away", "statement": "Two lists of instants that agree after flooring to whole seconds (also before 1970) give identical positions; positions are therefore piecewise constant over each second.", "quantifier": "all nanosecond instants", "why_tests_cant": "needs all instants, including negative ones", "anchors": ["src/sunwhere/utils/validate.py:check_timelatlon", "src/sunwhere/usecases.py:sites"]}
{"id": "C13", "title": "Position depends on the instant, not on how it is written", "statement": "Time-zone-aware inputs denoting the same instants in any zone (or naive UTC) give the same zenith, azimuth, ecf, eot and declination.", "quantifier": "all instants and all zones, including daylight-saving zones", "why_tests_cant": "all zones and instants", "anchors": ["src/sunwhere/usecases.py:sites", "src/sunwhere/utils/validate.py:check_timelatlon"]}
{"id": "C14", "title": "times_utc is the evaluated instant", "statement": "times_utc (and so true_solar_time, sunrise/sunset times, incidence) refers to the same instants at which the position was evaluated, for every kind of time input.", "quantifier": "all instants and all kinds of tz objects (naive, pytz zone, zoneinfo/datetime.timezone, pytz.FixedOffset)", "why_tests_cant": "tests only use naive times", "anchors": ["src/sunwhere/_base.py:Sunpos.__init__"]}
{"id": "C15", "title": "Daylight-saving fold", "statement": "A time-zone-aware instant lying in an ambiguous (repeated) local hour is handled: the result keeps the instant or the call does not fail.", "quantifier": "all zones, all time lists", "why_tests_cant": "needs instants inside the fold and the list context", "anchors": ["src/sunwhere/_base.py:Sunpos.__init__"]}
{"id": "C16", "title": "Refraction only changes the zenith", "statement": "Switching refraction on or off never changes azimuth, declination, ecf or eot; and without refraction the zenith is the purely geometric one.", "quantifier": "all inputs, algorithms, engines", "why_tests_cant": "all inputs", "anchors": ["src/sunwhere/libspa/ne_iqbal.py", "src/sunwhere/libspa/ne_nrel.py", "src/sunwhere/libspa/ne_psa.py", "src/sunwhere/libspa/ne_soltrack.py", "src/sunwhere/libspa/py_iqbal.py", "src/sunwhere/libspa/py_psa.py", "src/sunwhere/libspa/py_soltrack.py"]}
{"id": "C17", "title": "has_refraction tells the truth", "statement": "has_refraction is truthy exactly when the zenith includes the refraction correction.", "quantifier": "all values passable as the refraction flag (True, False, 1, numpy bools ...)", "why_tests_cant": "tests only pass False", "anchors": ["src/sunwhere/libspa/ne_iqbal.py", "src/sunwhere/libspa/ne_nrel.py", "src/sunwhere/libspa/ne_psa.py", "src/sunwhere/libspa/ne_soltrack.py", "src/sunwhere/libspa/py_iqbal.py", "src/sunwhere/libspa/py_psa.py", "src/sunwhere/libspa/py_soltrack.py", "src/sunwhere/_base.py:Sunpos.has_refraction"]}
{"id": "C18", "title": "Unrefracted zenith range", "statement": "Without refraction every algorithm returns a defined zenith in [0,180] degrees for all valid inputs.", "quantifier": "all times representable in ns, all latitudes/longitudes, all algorithms and engines", "why_tests_cant": "extremes (overhead sun, nadir, poles) are measure-zero for random tests", "anchors": ["src/sunwhere/libspa/ne_iqbal.py", "src/sunwhere/libspa/ne_nrel.py", "src/sunwhere/libspa/ne_psa.py", "src/sunwhere/libspa/ne_soltrack.py", "src/sunwhere/libspa/py_iqbal.py", "src/sunwhere/libspa/py_psa.py", "src/sunwhere/libspa/py_soltrack.py", "src/sunwhere/_base.py:Sunpos.zenith"]}
{"id": "C19", "title": "Refracted zenith range", "statement": "With refraction the documented range [0,180] still holds.", "quantifier": "all inputs, per algorithm", "why_tests_cant": "the violation occurs in narrow bands near singularities", "anchors": ["src/sunwhere/libspa/ne_iqbal.py", "src/sunwhere/libspa/ne_nrel.py", "src/sunwhere/libspa/ne_psa.py", "src/sunwhere/libspa/ne_soltrack.py", "src/sunwhere/libspa/py_iqbal.py", "src/sunwhere/libspa/py_psa.py", "src/sunwhere/libspa/py_soltrack.py", "src/sunwhere/_base.py:Sunpos.zenith"]}
{"id": "C20", "title": "Azimuth range", "statement": "Azimuth is in [-180,180] degrees for all algorithms, half-open per implementation.", "quantifier": "all inputs", "why_tests_cant": "branch cuts are measure zero", "anchors": ["src/sunwhere/libspa/ne_iqbal.py", "src/sunwhere/libspa/ne_nrel.py", "src/sunwhere/libspa/ne_psa.py", "src/sunwhere/libspa/ne_soltrack.py", "src/sunwhere/libspa/py_iqbal.py", "src/sunwhere/libspa/py_psa.py", "src/sunwhere/libspa/py_soltrack.py", "src/sunwhere/_base.py:Sunpos.azimuth"]}
{"id": "C21", "title": "Zenith is geometrically correct", "statement": "The unrefracted zenith (before the explicit parallax term) is the angle between the local vertical and the direction with the computed declination and hour angle, for each algorithm.", "quantifier": "all times and locations", "why_tests_cant": "continuum of inputs", "anchors": ["src/sunwhere/libspa/ne_iqbal.py", "src/sunwhere/libspa/ne_nrel.py", "src/sunwhere/libspa/ne_psa.py", "src/sunwhere/libspa/ne_soltrack.py", "src/sunwhere/libspa/py_iqbal.py", "src/sunwhere/libspa/py_psa.py", "src/sunwhere/libspa/py_soltrack.py"]}
{"id": "C22", "title": "Azimuth is geometrically correct", "statement": "The azimuth is the direction of the horizontal projection of the sun vector measured from south, positive towards west, for each algorithm and latitude including poles, whenever the sun is not at the zenith or nadir.", "quantifier": "all times and locations", "why_tests_cant": "quadrant errors hide from tolerance-based tests", "anchors": ["src/sunwhere/libspa/ne_iqbal.py", "src/sunwhere/libspa/ne_nrel.py", "src/sunwhere/libspa/ne_psa.py", "src/sunwhere/libspa/ne_soltrack.py", "src/sunwhere/libspa/py_iqbal.py", "src/sunwhere/libspa/py_psa.py", "src/sunwhere/libspa/py_soltrack.py"]}
{"id": "C23", "title": "Morning/afternoon sign", "statement": "Azimuth is negative (east) when the hour angle is in (-180,0) and positive (west) when in (0,180).", "quantifier": "all inputs", "why_tests_cant": "all quadrants", "anchors": ["src/sunwhere/libspa/ne_iqbal.py", "src/sunwhere/libspa/ne_nrel.py", "src/sunwhere/libspa/ne_psa.py", "src/sunwhere/libspa/ne_soltrack.py", "src/sunwhere/libspa/py_iqbal.py", "src/sunwhere/libspa/py_psa.py", "src/sunwhere/libspa/py_soltrack.py", "src/sunwhere/_base.py:Sunpos.azimuth"]}
{"id": "C24", "title": "Declination bound", "statement": "|declination| never exceeds 23.6 degrees for any algorithm.", "quantifier": "all times in 1677-2262", "why_tests_cant": "continuum of times", "anchors": ["src/sunwhere/libspa/ne_iqbal.py", "src/sunwhere/libspa/ne_nrel.py", "src/sunwhere/libspa/ne_psa.py", "src/sunwhere/libspa/ne_soltrack.py", "src/sunwhere/libspa/py_iqbal.py", "src/sunwhere/libspa/py_psa.py", "src/sunwhere/libspa/py_soltrack.py", "src/sunwhere/_base.py:Sunpos.declination"]}
{"id": "C25", "title": "Eccentricity factor bound", "statement": "0.96 <= ecf <= 1.04 for any algorithm.", "quantifier": "all times in 1677-2262", "why_tests_cant": "continuum of times", "anchors": ["src/sunwhere/libspa/ne_iqbal.py", "src/sunwhere/libspa/ne_nrel.py", "src/sunwhere/libspa/ne_psa.py", "src/sunwhere/libspa/ne_soltrack.py", "src/sunwhere/libspa/py_iqbal.py", "src/sunwhere/libspa/py_psa.py", "src/sunwhere/libspa/py_soltrack.py", "src/sunwhere/_base.py:Sunpos.ecf"]}
{"id": "C26", "title": "Equation of time bound", "statement": "|eot| <= 20 minutes: no wrap-around artefact of +-1440 minutes survives.", "quantifier": "all times in 1677-2262", "why_tests_cant": "wrap-around happens only at particular instants", "anchors": ["src/sunwhere/libspa/ne_nrel.py:time_dependent_calculations", "src/sunwhere/libspa/ne_psa.py:time_dependent_calculations", "src/sunwhere/libspa/ne_soltrack.py:time_dependent_calculations", "src/sunwhere/libspa/py_psa.py:time_dependent_calculations", "src/sunwhere/libspa/py_soltrack.py:time_dependent_calculations", "src/sunwhere/_base.py:Sunpos.eot"]}
{"id": "C27", "title": "Equation of time and declination of a real sun", "statement": "For psa, soltrack and nrel the returned declination and equation of time belong together: there is an ecliptic longitude and latitude, an obliquity and a mean longitude such that the declination is that of the ecliptic point and the equation of time is 4 minutes per degree of (mean longitude - right ascension), up to whole days; and these elements agree with an independent almanac (Meeus, Astronomical Algorithms ch. 25) within fixed per-algorithm tolerances.", "quantifier": "all instants representable in datetime64[ns] (1677-2262), all calls, every float32 rounding", "why_tests_cant": "a continuum of instants; six centuries of phases of the year, leap years and turns of the longitude", "anchors": ["src/sunwhere/libspa/ne_nrel.py:time_dependent_calculations", "src/sunwhere/libspa/ne_psa.py:time_dependent_calculations", "src/sunwhere/libspa/ne_soltrack.py:time_dependent_calculations", "src/sunwhere/libspa/py_psa.py:time_dependent_calculations", "src/sunwhere/libspa/py_soltrack.py:time_dependent_calculations"]}
{"id": "C28", "title": "Engines agree (soltrack, iqbal)", "statement": "In exact arithmetic the numpy and numexpr engines return the same zenith, azimuth, declination, ecf and eot for soltrack and for iqbal at every ndim.", "quantifier": "all inputs", "why_tests_cant": "tests compare at 2 degrees tolerance on random points", "anchors": ["src/sunwhere/libspa/py_soltrack.py", "src/sunwhere/libspa/ne_soltrack.py", "src/sunwhere/libspa/py_iqbal.py", "src/sunwhere/libspa/ne_iqbal.py"]}
{"id": "C29", "title": "Engines agree (psa)", "statement": "The psa engines return the same azimuth, declination, ecf and eot and a zenith whose cosine differs by at most 1e-6; whether the zenith itself agrees within the algorithm's documented accuracy of 0.002 degrees.", "quantifier": "all inputs", "why_tests_cant": "worst case is near zenith 0", "anchors": ["src/sunwhere/libspa/py_psa.py", "src/sunwhere/libspa/ne_psa.py"]}
{"id": "C30", "title": "Iqbal calendar", "statement": "The iqbal engine derives the correct year, month, day, time of day and day-of-year for every second, so its day angle advances uniformly within each year.", "quantifier": "all seconds, proleptic Gregorian", "why_tests_cant": "leap/century rules over all years", "anchors": ["src/sunwhere/libspa/py_iqbal.py:day_angle"]}
{"id": "C31", "title": "Iqbal local apparent time stays in [0,24)", "statement": "The positions iqbal returns are those of the local apparent time UTC + longitude/15 + equation of time (hours), wrapped by at most one day into [0,24), for all valid longitudes and times.", "quantifier": "all inputs", "why_tests_cant": "needs extremes of lon and eot", "anchors": ["src/sunwhere/libspa/py_iqbal.py"]}
{"id": "C32", "title": "Elevation and cosz consistency", "statement": "elevation + zenith = 90; cosz = cos(zenith); sza/saa/dec are aliases; all within documented ranges.", "quantifier": "all cells", "why_tests_cant": "all values", "anchors": ["src/sunwhere/_base.py:Sunpos.elevation", "src/sunwhere/_base.py:Sunpos.cosz"]}
{"id": "C33", "title": "Extraterrestrial irradiance", "statement": "eth >= 0, is zero exactly when the sun is at or below the horizon, is bounded by ISC*ecf, and scales linearly with ISC (am_correction none).", "quantifier": "all cells, all ISC>0", "why_tests_cant": "all values", "anchors": ["src/sunwhere/_base.py:Sunpos.eth"]}
{"id": "C34", "title": "Air-mass corrected irradiance", "statement": "With the documented corrections the correction factor is positive and bounded, so eth stays between 0 and a bounded multiple of the uncorrected value whenever the sun is up; and eth is 0 at night.", "quantifier": "all zenith angles, all corrections", "why_tests_cant": "continuum; the night-time case", "anchors": ["src/sunwhere/_base.py:Sunpos.eth"]}
{"id": "C35", "title": "Air mass range", "statement": "For zenith angles between 0 and 180 degrees airmass is NaN exactly when the zenith angle exceeds 90 degrees, otherwise between 1 and 40, for every parameterization. (The negative zenith angles iqbal returns with refraction near the zenith have no Gueymard air mass.)", "quantifier": "all zenith angles in [0,180]", "why_tests_cant": "continuum, horizon boundary", "anchors": ["src/sunwhere/_base.py:Sunpos.airmass"]}
{"id": "C36", "title": "Unknown options raise ValueError", "statement": "airmass, eth, sunrise and sunset raise ValueError for unknown option strings, as documented, and accept exactly the documented ones.", "quantifier": "all strings", "why_tests_cant": "infinitely many strings", "anchors": ["src/sunwhere/_base.py:Sunpos.airmass", "src/sunwhere/_base.py:Sunpos.eth", "src/sunwhere/_base.py:Sunpos.sunrise", "src/sunwhere/_base.py:Sunpos.sunset"]}
{"id": "C37", "title": "Sunrise angle exists exactly outside polar day/night", "statement": "sunrise('deg') is NaN iff the sun (at the given declination) never crosses the horizon at that latitude that day, else lies in [0,180]; 'rad' is the same angle in radians. The poles at declination exactly 0, where the sun stays on the horizon all day, are excluded.", "quantifier": "all latitudes and declinations", "why_tests_cant": "boundary latitudes", "anchors": ["src/sunwhere/_base.py:Sunpos.sunrise"]}
{"id": "C38", "title": "Sunrise is the horizon crossing", "statement": "At the sunrise hour angle the geometric elevation is zero; the sun is above the horizon exactly for smaller hour angles.", "quantifier": "all latitudes and declinations with a crossing", "why_tests_cant": "continuum", "anchors": ["src/sunwhere/_base.py:Sunpos.sunrise"]}
{"id": "C39", "title": "Daylight length", "statement": "daylight_length is in [0,24], is 12 at the equator or at zero declination, grows with declination in the northern hemisphere, and the lengths at opposite latitudes add to 24.", "quantifier": "all latitudes, declinations", "why_tests_cant": "continuum", "anchors": ["src/sunwhere/_base.py:Sunpos.daylight_length"]}
{"id": "C40", "title": "Sunrise/sunset times consistent", "statement": "sunset - sunrise = daylight length for tst, utc and local; tst and utc differ by the same 4*lon+eot offset as true_solar_time; local and utc differ by the utc offset; sunrise and sunset lie symmetrically around 12:00 true solar time of the true-solar day.", "quantifier": "all inputs", "why_tests_cant": "day-boundary cases", "anchors": ["src/sunwhere/_base.py:Sunpos.sunrise", "src/sunwhere/_base.py:Sunpos.sunset"]}
{"id": "C41", "title": "sunset angles", "statement": "sunset('deg') (the default!) and sunset('rad') return the sunset angle.", "quantifier": "all inputs", "why_tests_cant": "no test calls it; every call fails", "anchors": ["src/sunwhere/_base.py:Sunpos.sunset"]}
{"id": "C42", "title": "True solar time", "statement": "true_solar_time - times_utc = 4*longitude + eot minutes for every cell (to the nanosecond truncation).", "quantifier": "all cells", "why_tests_cant": "all values", "anchors": ["src/sunwhere/_base.py:Sunpos.true_solar_time"]}
{"id": "C43", "title": "Incidence is the cosine between sun and surface normal", "statement": "incidence(slope, azimuth) is the dot product of the unit sun vector (from declination and true solar time) and the unit surface normal, hence in [-1,1], 360-periodic, reversed when the surface is turned over, and reaches 1 exactly for a surface facing the sun.", "quantifier": "all slopes, orientations, latitudes, times", "why_tests_cant": "continuum; orientation sign errors", "anchors": ["src/sunwhere/_base.py:Sunpos.incidence"]}
{"id": "C44", "title": "Horizontal incidence", "statement": "incidence(0, any) is independent of the orientation and equals the cosine of the geometric zenith at the true-solar-time hour angle.", "quantifier": "all inputs", "why_tests_cant": "continuum", "anchors": ["src/sunwhere/_base.py:Sunpos.incidence"]}
{"id": "C45", "title": "Dimension order of results", "statement": "Every DataArray returned for a use case has dimensions in the documented order (time, location) / (time, latitude, longitude) / (time).", "quantifier": "every property and method", "why_tests_cant": "needs each method x use case", "anchors": ["src/sunwhere/_base.py:Sunpos.incidence", "src/sunwhere/_base.py:Sunpos.sunrise"]}
{"id": "C46", "title": "true_solar_time and universal_time_coordinated work", "statement": "The exported true_solar_time(times, longitude) and universal_time_coordinated(times_tst, longitude) return times for valid inputs.", "quantifier": "all inputs", "why_tests_cant": "untested; fails on every input", "anchors": ["src/sunwhere/utils/datetime.py:true_solar_time", "src/sunwhere/utils/datetime.py:universal_time_coordinated"]}
{"id": "C47", "title": "CLI coordinate parsing", "statement": "parse_latitude/parse_longitude accept <number><hemisphere letter, any case> exactly when in range and return the signed value; everything else is rejected.", "quantifier": "all strings (with an abstract float parser)", "why_tests_cant": "infinitely many strings", "anchors": ["src/sunwhere/_cli/main.py:parse_latitude", "src/sunwhere/_cli/main.py:parse_longitude"]}
{"id": "C48", "title": "CLI equation-of-time display", "statement": "The displayed m:ss.s denotes the equation of time to within 0.05 s.", "quantifier": "all eot values", "why_tests_cant": "sign and carry cases", "anchors": ["src/sunwhere/_cli/position.py:calculate_position"]}
{"id": "C49", "title": "CLI 'now'", "statement": "sunwhere at now -z TZ reports the position for the current instant.", "quantifier": "all machine zones and requested zones", "why_tests_cant": "depends on machine zone", "anchors": ["src/sunwhere/_cli/position.py:calculate_position"]}
{"id": "C50", "title": "JPL month windows", "statement": "The twelve monthly requests of load_jpl_ephemeris tile the year exactly (each starts at the month's first minute, ends at its last) and stay below the line limit.", "quantifier": "all years", "why_tests_cant": "leap years, December", "anchors": ["src/sunwhere/utils/jpl_horizons.py:load_jpl_ephemeris"]}
{"id": "C51", "title": "JPL reading and loading", "statement": "read_jpl_ephemeris_file returns one row per data line between the marks of a file, at the line's time, with azimuth from south, zenith and eccentricity factor; load_jpl_ephemeris returns the table of the year.", "quantifier": "all files, all histories of calls and downloads", "why_tests_cant": "unbounded files and histories", "anchors": ["src/sunwhere/utils/jpl_horizons.py:load_jpl_ephemeris", "src/sunwhere/utils/jpl_horizons.py:read_jpl_ephemeris_file"]}
{"id": "C52", "title": "Benchmark azimuth residual", "statement": "The benchmark's azimuth error is the signed angular difference in [-180,180].", "quantifier": "all azimuth pairs", "why_tests_cant": "branch cut", "anchors": ["src/sunwhere/_cli/benchmark.py:calc_error"]}
{"id": "C53", "title": "Refraction raises the sun", "statement": "For psa and nrel refraction never lowers the sun by more than 1e-6 rad, raises it by at most 0.62 degrees, and changes nothing when the sun is more than 0.8334 degrees below the horizon.", "quantifier": "all inputs", "why_tests_cant": "continuum", "anchors": ["src/sunwhere/libspa/ne_psa.py", "src/sunwhere/libspa/ne_nrel.py"]}
{"id": "C54", "title": "Position, equation of time and declination are consistent", "statement": "The returned zenith and azimuth belong to the returned declination and to the hour angle 15*(UTC hours - 12) + longitude + eot/4 degrees obtained from the returned equation of time, within 0.022 degrees of hour angle (psa), 0.0012 (soltrack, nrel), exactly for iqbal.", "quantifier": "all representable instants, all valid coordinates, all algorithm-engine pairs, all three use cases", "why_tests_cant": "a comparison of transcendental expressions over a continuum of instants and places; tests sample", "anchors": ["src/sunwhere/libspa/ne_iqbal.py:sunpos", "src/sunwhere/libspa/ne_nrel.py:sunpos", "src/sunwhere/libspa/ne_psa.py:sunpos", "src/sunwhere/libspa/ne_soltrack.py:sunpos", "src/sunwhere/libspa/py_iqbal.py:sunpos", "src/sunwhere/libspa/py_psa.py:sunpos", "src/sunwhere/libspa/py_soltrack.py:sunpos", "src/sunwhere/_core.py:evaluate"]}
{"id": "C55", "title": "Algorithms agree", "statement": "At the same instant each algorithm's declination, equation of time and eccentricity correction factor agree with an independent almanac within stated tolerances; hence any two calls agree with each other within the sum of the tolerances, and the unrefracted positions they return for the same place are directions within a stated angle of each other, whatever the use case, engine and array shapes.", "quantifier": "all instants 1677-2262, all valid places, all pairs of algorithm-engine pairs and use cases", "why_tests_cant": "a continuum of instants and places", "anchors": ["src/sunwhere/libspa/ne_iqbal.py:sunpos", "src/sunwhere/libspa/ne_nrel.py:sunpos", "src/sunwhere/libspa/ne_psa.py:sunpos", "src/sunwhere/libspa/ne_soltrack.py:sunpos", "src/sunwhere/libspa/py_iqbal.py:sunpos", "src/sunwhere/libspa/py_psa.py:sunpos", "src/sunwhere/libspa/py_soltrack.py:sunpos"]}
{"id": "C56", "title": "CLI sunrise and sunset", "statement": "The sunrise and sunset shown in UTC and in the requested zone are the API's for that day, and differ by the zone's UTC offset.", "quantifier": "all zones, times and places", "why_tests_cant": "zone rules and places are unbounded", "anchors": ["src/sunwhere/_cli/position.py:calculate_position"]}
{"id": "C57", "title": "CLI reports at every latitude", "statement": "Every valid request (also in polar day or night) prints a report; in particular everywhere below 66.4 degrees.", "quantifier": "all valid times and places", "why_tests_cant": "depends on declination and latitude", "anchors": ["src/sunwhere/_cli/position.py:calculate_position"]}
{"id": "C58", "title": "CLI times with a UTC offset", "statement": "A TIME argument that carries its own UTC offset is reported; times a zone's clock shows twice or never exit with status 1.", "quantifier": "all texts, zones", "why_tests_cant": "unbounded inputs", "anchors": ["src/sunwhere/_cli/position.py:calculate_position"]}
{"id": "C59", "title": "CLI numbers are the API's", "statement": "A printed report shows the API's zenith, elevation, azimuth, declination and distance, rounded to four decimals, for the one instant at which the requested zone's clock reads the requested time.", "quantifier": "all times, zones, places, algorithms", "why_tests_cant": "unbounded inputs", "anchors": ["src/sunwhere/_cli/position.py:calculate_position"]}
{"id": "C60", "title": "Benchmark cache file", "statement": "The benchmark's file name exists for every site and two runs that share a file are for the same year and sites within 0.0001 degrees; its single request for the year is within the line limit.", "quantifier": "all years and sites", "why_tests_cant": "continuum of sites", "anchors": ["src/sunwhere/_cli/benchmark.py"]}
{"id": "C61", "title": "JPL data belong to the site", "statement": "The data load_jpl_ephemeris uses for a site were requested for that site.", "quantifier": "all histories of calls", "why_tests_cant": "depends on the history of files left on disk", "anchors": ["src/sunwhere/utils/jpl_horizons.py:load_jpl_ephemeris"]}
{"id": "C62", "title": "Solar chart: solstices and the user's day", "statement": "In a solar chart the curves for 21 June, 21 December and the user's day are the positions `sites` gives at the instants at which the chart's time zone shows the 2- (5-) minute readings of that date (readings shown never or twice are left out), and the user's point is the position at the user's instant.", "quantifier": "all zones, sites, dates and arguments", "why_tests_cant": "needs all time zones and dates", "anchors": ["src/sunwhere/_cli/solar_chart.py:SolarChart.draw_solar_grid", "src/sunwhere/_cli/solar_chart.py:SolarChart.draw_solar_path"]}
{"id": "C63", "title": "Solar chart: hour lines", "statement": "The line (analemma) and the label drawn for h:m show the sun when the clock of the chart's time zone reads h:m.", "quantifier": "all zones, sites, years, hours and minutes", "why_tests_cant": "the error depends on the zone's offset at each day", "anchors": ["src/sunwhere/_cli/solar_chart.py:SolarChart.draw_solar_grid"]}
{"id": "C64", "title": "Solar chart: dates of the day curves", "statement": "The curve labelled day/month is the sun's path of that day and month, for every requested day and month; the solstices are always drawn.", "quantifier": "all lists of days and months, all zones, sites and years", "why_tests_cant": "the parser's choice depends on the numbers", "anchors": ["src/sunwhere/_cli/solar_chart.py:SolarChart.draw_solar_grid"]}
{"id": "C65", "title": "Solar chart: sites", "statement": "A solar chart can be made exactly for latitudes strictly between -90 and 90 and longitudes from -180 (included) to 180 (excluded); anything else, NaN and infinities included, is an AssertionError.", "quantifier": "all floats", "why_tests_cant": "continuum of values", "anchors": ["src/sunwhere/_cli/solar_chart.py:SolarChart.__init__", "src/sunwhere/_cli/solar_chart.py:SolarPosition.__init__"]}
{"id": "C66", "title": "Solar chart: made for every date and time", "statement": "make_solar_chart makes a chart for every accepted site, zone, and date and time, also without a date and time (its default).", "quantifier": "all zones, sites, dates and times", "why_tests_cant": "needs all readings of all zones, and the default argument", "anchors": ["src/sunwhere/_cli/solar_chart.py:make_solar_chart"]}
{"id": "C67", "title": "Solar chart: the user's point is on the user's analemma", "statement": "The user's instant is one of the instants of the analemma drawn for the user.", "quantifier": "all zones, dates and times", "why_tests_cant": "fails only around the end of a leap year and next to clock changes", "anchors": ["src/sunwhere/_cli/solar_chart.py:SolarChart.draw_solar_path"]}
{"id": "C68", "title": "Single precision does not degrade the position", "statement": "Although coordinates, latitude functions and (in iqbal and soltrack) intermediate results are computed in IEEE float32, the azimuth and zenith returned by psa, soltrack and iqbal describe the direction of a sun at the returned declination and equation of time, seen from the requested place, within 2e-6 of a unit vector (soltrack on numpy beyond 80 degrees of latitude: 4e-4); a zenith is missing only if the sun is that close to the zenith or nadir, and then only from iqbal or soltrack/numpy. Hence all engines, use cases and positions in a request describe the same direction.", "quantifier": "all float32 roundings with IEEE-like properties (binary32 among them), all instants, places, use cases, and pairs algorithm/engine but nrel", "why_tests_cant": "rounding errors must be bounded for all latitudes, longitudes and instants; the bad cases sit near poles, horizons and overhead suns", "anchors": ["src/sunwhere/libspa/ne_iqbal.py:sunpos", "src/sunwhere/libspa/ne_nrel.py:sunpos", "src/sunwhere/libspa/ne_psa.py:sunpos", "src/sunwhere/libspa/ne_soltrack.py:sunpos", "src/sunwhere/libspa/py_iqbal.py:sunpos", "src/sunwhere/libspa/py_psa.py:sunpos", "src/sunwhere/libspa/py_soltrack.py:sunpos", "src/sunwhere/_core.py:evaluate"]}
{"id": "C69", "title": "Double precision does not degrade the results", "statement": "Computed as the code computes it, in IEEE double precision with float32 coordinates and latitude functions and a C library accurate to a few ulps, psa, soltrack and iqbal return a declination and an eccentricity factor within 1e-9 and an equation of time within 7e-8 minutes of the exact values of the algorithm, and an azimuth and a zenith that describe the direction of a sun at the returned declination and equation of time, seen from the requested place, within 3e-6 of a unit vector (soltrack on numpy: 5e-6 up to 80 degrees of latitude, 7e-4 beyond); the azimuth lies between the floats nearest to -pi and pi, the zenith between -1e-9 and pi + 1e-9, or NaN if the sun is that close to the vertical. Hence all engines, use cases, requests and conforming C libraries describe the same direction, east before noon and west after it, and positions of different algorithms agree within the almanac tolerances.", "quantifier": "all double precision arithmetics with IEEE-like properties (round-to-nearest binary64/binary32 with correctly rounded functions among them), all instants a datetime64[ns] can hold, places, use cases, requests, and pairs algorithm/engine but nrel; zenith without refraction", "why_tests_cant": "the rounding error of some two hundred operations must be bounded for every instant, place and C library; the ill-conditioned cases sit at poles, overhead suns and branch cuts that sampling misses", "anchors": ["src/sunwhere/libspa/py_psa.py:sunpos", "src/sunwhere/libspa/ne_psa.py:sunpos", "src/sunwhere/libspa/py_soltrack.py:sunpos", "src/sunwhere/libspa/ne_soltrack.py:sunpos", "src/sunwhere/libspa/py_iqbal.py:sunpos", "src/sunwhere/libspa/ne_iqbal.py:sunpos"]}
{"id": "C70", "title": "Benchmark scores", "statement": "For every table of ephemerides with JPL's columns, the benchmark rates every other method on every variable; each score (mbe, std, mae, rmse, 66% and 90% confidence half-widths) is the documented statistic of the residuals over the rows where the values are known, so |mbe| <= mae <= rmse, rmse^2 = mbe^2 + std^2 (n-1)/n, the 66% half-width is at most the 90% one and each holds its share of the rows, rmse is zero exactly if the method reproduces JPL, and azimuth scores are those of the angular differences; the clear-sky scores are those of the daytime irradiance differences; printed angles are arc-seconds.", "quantifier": "every number of rows and methods, every placement of missing values, every value of every column, every clear-sky model", "why_tests_cant": "It ranges over all tables; a test compares a few tables with a few numbers.", "anchors": ["src/sunwhere/_cli/benchmark.py:calc_residues", "src/sunwhere/_cli/benchmark.py:get_bulk_ephemeris_errors", "src/sunwhere/_cli/benchmark.py:get_bulk_clearsky_errors", "src/sunwhere/_cli/benchmark.py:run_benchmark"]}
{"id": "C71", "title": "Benchmark columns carry their own algorithm", "statement": "A benchmark run rates every supported algorithm-engine pair exactly once, the column named sunwhere.<algorithm>_<engine> holding the results of sites() with that algorithm and engine and without refraction, whatever else the caller passes; every rated name can be printed and no two are printed alike.", "quantifier": "every list of times, every accepted site, every keyword argument", "why_tests_cant": "It ranges over all times, sites and keyword arguments.", "anchors": ["src/sunwhere/_cli/benchmark.py:sunwhere_ephemeris", "src/sunwhere/_cli/benchmark.py:print_bulk_errors"]}
{"id": "C72", "title": "nrel keeps its accuracy in double precision", "statement": "Computed as the code computes it, in IEEE double precision with a C library accurate to a few ulps, nrel returns a declination and an eccentricity factor within 1e-9 and an equation of time within 4e-7 minutes of the exact values of the algorithm, and an azimuth and a zenith that describe, within 1.1e-8 of a unit vector, the topocentric direction (parallax removed with the observer's place on the ellipsoid) of a sun at the returned declination and distance, whose hour angle follows from the returned equation of time within 2e-5 rad. The azimuth lies between the floats nearest to -pi and pi, the zenith between -1e-9 and pi + 1e-9, or NaN if the sun is within 1.5e-4 rad of the vertical. Hence all use cases, requests and conforming C libraries describe the same direction as exact arithmetic would, east before noon and west after it, and nrel agrees with the other algorithms in any precision within the almanac tolerances plus one solar parallax.", "quantifier": "all double precision arithmetics with IEEE-like properties (round-to-nearest binary64/binary32 with correctly rounded functions among them), all instants a datetime64[ns] can hold, places, use cases and requests; zenith without refraction", "why_tests_cant": "the rounding errors of some four hundred series terms, an iterated division of angles by turns and three inverse functions must be bounded for every instant, place and C library", "anchors": ["src/sunwhere/libspa/ne_nrel.py:sunpos"]}
{"id": "C73", "title": "Refraction in double precision is the published correction", "statement": "Computed as the code computes it, in IEEE double precision, the zenith angle returned with refraction=True is the one returned with refraction=False minus the published correction of the algorithm (Saemundsson's formula for psa, nrel and soltrack, scaled to 1013.25 hPa and 12 degrees Celsius for nrel; Rigollier et al. for iqbal), within 1e-11 rad; psa and nrel correct only down to 0.8334 degrees below the horizon. A NaN stays a NaN and no other value becomes one. The correction raises the sun by at most 0.62 degrees (iqbal 1.52) and lowers it by at most 1.1e-6 rad (iqbal 0.07 degrees). For soltrack this holds at elevations above -0.07 or below -0.11 rad: in between its formula has a pole.", "quantifier": "all double precision arithmetics with IEEE-like properties, supported algorithm-engine pairs, instants, places, use cases and requests", "why_tests_cant": "a tangent near its pole and its zero amplifies rounding errors; the bound must hold for every elevation and C library", "anchors": ["src/sunwhere/libspa/ne_psa.py:sunpos", "src/sunwhere/libspa/py_psa.py:sunpos", "src/sunwhere/libspa/ne_nrel.py:sunpos", "src/sunwhere/libspa/ne_soltrack.py:sunpos", "src/sunwhere/libspa/py_soltrack.py:sunpos", "src/sunwhere/libspa/ne_iqbal.py:sunpos", "src/sunwhere/libspa/py_iqbal.py:sunpos"]}
{"id": "C74", "title": "Angles, cosine and irradiance accessors in double precision", "statement": "Computed in IEEE double precision, zenith, azimuth and declination are the stored radians in degrees to 2e-13 and, without refraction, lie in [0,180], [-180,180] and [-23.61,23.61] but for 1e-7, 1e-12 and nothing, unless the zenith is NaN; elevation is 90 minus the returned zenith to 5e-14 degrees; cosz is the cosine of the returned zenith to 4e-15 and within [-1,1]. eth(ISC) without correction is ISC times ecf times the positive part of the cosine to 5e-15 relative to ISC, never negative, exactly zero at zenith angles from 90+1e-12 degrees on and positive up to 90-1e-12. With a correction and the sun up it is the uncorrected value times the published function of the returned air mass or zenith to 2e-12; at night it is zero for skarveith_1998 and NaN for the other two. A NaN zenith makes all of them NaN. From 24.5 degrees of latitude on the unrefracted zenith is never NaN.", "quantifier": "all double precision arithmetics with IEEE-like properties, supported algorithm-engine pairs, instants, places, use cases and requests, ISC in [1, 1e5]", "why_tests_cant": "rounding happens at every operation and at every zenith; the sign of eth next to the horizon depends on the last bit of the cosine", "anchors": ["src/sunwhere/_base.py:zenith", "src/sunwhere/_base.py:elevation", "src/sunwhere/_base.py:cosz", "src/sunwhere/_base.py:eth", "src/sunwhere/_base.py:airmass"]}
{"id": "C75", "title": "Air mass in double precision", "statement": "Computed in IEEE double precision, airmass returns NaN above 90 degrees of zenith and, from 0 to 90, a number within 1e-10 of max(1, 1/(cos z + a z^p (b-z)^-q)) with the published coefficients of each of the four parameterizations, at least 1 and at most 39.0001.", "quantifier": "all double precision arithmetics with IEEE-like properties, parameterizations, calls and returned zenith angles in [0,180]", "why_tests_cant": "powers with fractional exponents amplify rounding near the horizon; the bound must hold for every zenith and C library", "anchors": ["src/sunwhere/_base.py:airmass"]}
{"id": "C76", "title": "Sunrise, sunset and day length in double precision", "statement": "Computed in IEEE double precision at any latitude, sunrise in degrees and radians agree to 2e-15 rad, are in [0,180] but for 1e-12, and separate the hour angles with the sun above the horizon from those below it to 1e-14 of the sun's height; the length of the day is 2/15 of the angle to 1e-14 h and in [0,24] but for 2e-13. They are NaN only if the sun stays above, or below, the horizon all day to the same precision; never at latitudes up to 66.3 degrees. Sunrise and sunset times are NaT exactly then, and otherwise lie day length apart, symmetric about noon of the true solar day, to 3 ns; sunset minus sunrise is the same in the three clocks, the UTC and true-solar times differ by 4 lon + eot minutes to 2 ns, and the local and UTC ones by the offset of the request exactly.", "quantifier": "all double precision arithmetics with IEEE-like properties, supported algorithm-engine pairs, instants, places, use cases and requests; in double precision, requests whose stored UTC time lies in the datetime64[ns] range", "why_tests_cant": "the domain test of the arc cosine is decided by the last bit of a product of tangents, at every latitude up to the poles", "anchors": ["src/sunwhere/_base.py:sunrise", "src/sunwhere/_base.py:sunset", "src/sunwhere/_base.py:daylight_length"]}
{"id": "C77", "title": "True solar time and incidence in double precision", "statement": "Computed in IEEE double precision, the true solar time is the stored UTC time plus 4 lon + eot minutes to |u|/2^52 + 2 ns, u the UTC time in ns since 1970 - 2050 ns for any representable time, about 0.5 microseconds nowadays - but not to the nanosecond: two times 100 ns apart can get the same one. The incidence cosine is the scalar product of the sun vector at the hour angle of the returned true solar time with the normal of the surface, to 1e-13.", "quantifier": "all double precision arithmetics with IEEE-like properties, supported algorithm-engine pairs, instants, places, use cases and requests, slopes and surface azimuths up to 1000 degrees; in double precision, requests whose stored UTC time lies in the datetime64[ns] range", "why_tests_cant": "the error grows with the distance from 1970; each bound must hold for every instant", "anchors": ["src/sunwhere/_base.py:true_solar_time", "src/sunwhere/_base.py:incidence"]}
{"id": "C78", "title": "Nearby requests give nearby directions", "statement": "For one algorithm, the directions of the sun (unrefracted zenith and azimuth) returned for two requests differ by no more than the sky can turn and the places are apart: with c = 7.314e-5 rad (15.09 arcseconds) per second of time plus 1.0002 times the differences of latitude and longitude (longitude modulo whole turns) in radians, the chord between the directions is at most c, the angle and the difference of zenith at most 1.002 c when c <= 0.1. So nothing jumps at midnight, at the end of a month, at the poles, at the date line or between the engines; sub-second differences are not resolved. Exceptions: psa with numpy rounds the cosine of the zenith to six decimals, which adds 0.001001 rad per such request; iqbal repeats the last day of a leap year, which counts as a day more per 29 February in between.", "quantifier": "all pairs of requests with the same algorithm: any engines, use cases, instants 1677-2262, latitudes, longitudes, series", "why_tests_cant": "continuity is a statement about all pairs of instants and places; jumps hide at single seconds or places (wraps of longitude, of right ascension, of the hour angle)", "anchors": ["src/sunwhere/libspa/ne_nrel.py:time_dependent_calculations", "src/sunwhere/libspa/ne_psa.py:time_dependent_calculations", "src/sunwhere/libspa/ne_soltrack.py:time_dependent_calculations", "src/sunwhere/libspa/py_iqbal.py:day_angle", "src/sunwhere/libspa/py_psa.py:time_dependent_calculations", "src/sunwhere/libspa/py_soltrack.py:time_dependent_calculations"]}
{"id": "C79", "title": "Declination, equation of time and distance change slowly", "statement": "For one algorithm, between two instants D seconds apart the declination changes by at most 9.15e-8 D rad (0.46 degrees a day), the equation of time by at most 6.4e-6 D minutes (34 seconds a day) and the eccentricity correction by at most 8.3e-9 D; so the equation of time never jumps by a day or a turn. For iqbal D has a day added per 29 February in between, and this is needed: over the last second of 2024 its equation of time jumps by more than 0.4 minutes and its declination by more than a milliradian.", "quantifier": "all pairs of requests with the same algorithm: any engines, float32 arithmetics, instants 1677-2262", "why_tests_cant": "a bound on the rate of change over all pairs of instants; the reductions to one turn and to +-20 minutes could slip at isolated seconds", "anchors": ["src/sunwhere/libspa/ne_nrel.py:time_dependent_calculations", "src/sunwhere/libspa/ne_psa.py:time_dependent_calculations", "src/sunwhere/libspa/ne_soltrack.py:time_dependent_calculations", "src/sunwhere/libspa/py_iqbal.py:day_angle", "src/sunwhere/libspa/py_psa.py:time_dependent_calculations", "src/sunwhere/libspa/py_soltrack.py:time_dependent_calculations"]}
{"id": "C80", "title": "Day and night agree with sunrise and sunset", "statement": "For a request of instant t, the unrefracted zenith and the sunrise and sunset returned for the same cell tell the same story: if the zenith is at most 89.95 degrees then t lies between the returned sunrise and sunset in UTC (inclusive), and if it is at least 90.05 degrees then t lies before sunrise or after sunset. Where no sunrise is returned (NaT) the sun stays up all day when latitude and declination have the same sign (zenith below 90.05 degrees) and stays down when they have opposite signs (zenith above 89.95 degrees). So the sunrise and sunset belong to the solar day of t, whatever the longitude and time of day, and the polar cases are not mixed up. Also in double precision.", "quantifier": "all four algorithms, both engines, all use cases, instants 1677-2262, places, float32 (double) arithmetics; times_utc must be the instant (true of naive and fixed-offset times); in double precision, requests whose stored UTC time lies in the datetime64[ns] range", "why_tests_cant": "an equivalence between two computations (position and crossing times) for every instant and place; the solar day of t is chosen by a floor that can slip near midnight at any longitude", "anchors": ["src/sunwhere/_base.py:Sunpos.sunrise", "src/sunwhere/_base.py:Sunpos.sunset", "src/sunwhere/_base.py:Sunpos.zenith", "src/sunwhere/_base.py:Sunpos.true_solar_time", "src/sunwhere/usecases.py:sites"]}
{"id": "C81", "title": "The returned sunrise and sunset are horizon crossings", "statement": "Ask for the position at the instant returned as sunrise or sunset, with the same algorithm at the same place: the unrefracted zenith is 90 degrees within 0.05 degrees plus 6.85e-6 degrees per second between the request and that instant (the declination and equation of time are those of the request), hence within 0.65 degrees; for iqbal within 1.24 degrees, as a repeated day in leap years counts.", "quantifier": "all four algorithms, both engines and any combination of engines, all use cases, instants 1677-2262, places, float32 (double) arithmetics", "why_tests_cant": "a round trip through two calls over all instants and places; errors of sign in the equation of time or longitude offset show only at some of them", "anchors": ["src/sunwhere/_base.py:Sunpos.sunrise", "src/sunwhere/_base.py:Sunpos.sunset", "src/sunwhere/_base.py:Sunpos.zenith", "src/sunwhere/_base.py:Sunpos.true_solar_time", "src/sunwhere/usecases.py:sites"]}
{"id": "C82", "title": "The sun keeps the calendar", "statement": "In every month of every year the declination, equation of time and eccentricity correction returned by any of the four algorithms lie in a fixed almanac table, e.g. January: -23.3 to -16.7 degrees, -15.0 to -1.4 minutes, 1.026 to 1.037; June: 21.6 to 23.6 degrees, -5.4 to 3.8 minutes, 0.965 to 0.977; November: -22.3 to -13.7 degrees, 9.0 to 17.4 minutes, 1.010 to 1.033. So no algorithm drifts against the Gregorian calendar over six centuries, misplaces a month or leap day, or has the sign of the equation of time the other way round. Also in double precision.", "quantifier": "all four algorithms, both engines, all use cases, all instants 1677-2262 (every second of every month), float32 (double) arithmetics", "why_tests_cant": "18 billion seconds; calendar slips occur at single days of single years (1700, 1900, 2100, ends of leap years)", "anchors": ["src/sunwhere/libspa/py_iqbal.py:time_dependent_calculations", "src/sunwhere/libspa/py_psa.py:time_dependent_calculations", "src/sunwhere/libspa/py_soltrack.py:time_dependent_calculations", "src/sunwhere/libspa/ne_nrel.py:time_dependent_calculations", "src/sunwhere/_base.py:Sunpos.declination", "src/sunwhere/_base.py:Sunpos.eot", "src/sunwhere/_base.py:Sunpos.ecf"]}
{"id": "C83", "title": "Long days in summer, midnight sun and polar night", "statement": "From April to August the returned daylight length is more than 12 hours at every northern latitude and less at every southern one; from October to February the reverse (in double precision from 1 degree of latitude on). At latitudes of 69 degrees and beyond there is no sunrise and no sunset in June and December; in June in the north and in December in the south the returned zenith stays below 89.8 degrees at every instant (midnight sun), in December in the north and June in the south above 90.2 degrees (polar night).", "quantifier": "all four algorithms, both engines, all use cases, all instants of the months 1677-2262, all such latitudes, all longitudes, float32 (double) arithmetics", "why_tests_cant": "for all instants of six centuries and all latitudes; polar cases are decided by NaN results of acos", "anchors": ["src/sunwhere/_base.py:Sunpos.sunrise", "src/sunwhere/_base.py:Sunpos.sunset", "src/sunwhere/_base.py:Sunpos.daylight_length", "src/sunwhere/_base.py:Sunpos.zenith", "src/sunwhere/libspa/py_iqbal.py:time_dependent_calculations", "src/sunwhere/libspa/py_psa.py:time_dependent_calculations", "src/sunwhere/libspa/py_soltrack.py:time_dependent_calculations", "src/sunwhere/libspa/ne_nrel.py:time_dependent_calculations"]}
{"id": "C84", "title": "The sun stays between its culminations", "statement": "At a place of latitude la and for the returned declination d, the cosine of the returned unrefracted zenith lies between -cos(la+d) and cos(la-d), the values at midnight and noon, within 0.00077; hence outside 31 degrees of latitude the sun never comes closer than |la|-24 degrees to the zenith.", "quantifier": "all four algorithms, both engines, all use cases, all instants 1677-2262 and places, float32 (double) arithmetics", "why_tests_cant": "an extremum over all instants and places", "anchors": ["src/sunwhere/_base.py:Sunpos.zenith", "src/sunwhere/libspa/py_iqbal.py:time_dependent_calculations", "src/sunwhere/libspa/py_psa.py:time_dependent_calculations", "src/sunwhere/libspa/py_soltrack.py:time_dependent_calculations", "src/sunwhere/libspa/ne_nrel.py:time_dependent_calculations"]}
{"id": "C85", "title": "The sun climbs all morning and sinks all afternoon", "statement": "At a place with |latitude| at most 70 degrees, take two requests without refraction, with the same algorithm (for iqbal in the same calendar year), whose returned true solar times lie in the same solar day at least 30 minutes apart: if the later is not after solar noon (12 h) its zenith is smaller than the earlier's, and if the earlier is not before noon the zenith of the later is larger.", "quantifier": "all four algorithms, any two engines and use cases, all pairs of instants 1677-2262, all latitudes up to 70 degrees and all longitudes, float32 (double) arithmetics", "why_tests_cant": "monotonicity over all pairs of instants and places, from two separate calls", "anchors": ["src/sunwhere/_base.py:Sunpos.zenith", "src/sunwhere/_base.py:Sunpos.true_solar_time", "src/sunwhere/libspa/py_iqbal.py:time_dependent_calculations", "src/sunwhere/libspa/py_psa.py:time_dependent_calculations", "src/sunwhere/libspa/py_soltrack.py:time_dependent_calculations", "src/sunwhere/libspa/ne_nrel.py:time_dependent_calculations"]}
{"id": "C86", "title": "East before noon, west after noon, on the meridian at noon", "statement": "With azimuths from south, east negative: the returned azimuth is in (-180,0) when the returned true solar time is at least 4 minutes after midnight and before noon, and in (0,180) when it is at least 4 minutes after noon and before midnight. From 40 degrees of latitude on, within 4 minutes of true solar noon the azimuth is within 5 degrees of south in the northern hemisphere and of north in the southern, and within 4 minutes of true solar midnight the reverse.", "quantifier": "all four algorithms, both engines, all use cases, with and without refraction, all instants 1677-2262, all places (poles included), every double arithmetic", "why_tests_cant": "for all instants and places; two outputs computed along different paths must agree", "anchors": ["src/sunwhere/_base.py:Sunpos.azimuth", "src/sunwhere/_base.py:Sunpos.true_solar_time", "src/sunwhere/libspa/py_iqbal.py:time_dependent_calculations", "src/sunwhere/libspa/py_psa.py:time_dependent_calculations", "src/sunwhere/libspa/py_soltrack.py:time_dependent_calculations", "src/sunwhere/libspa/ne_nrel.py:time_dependent_calculations"]}
{"id": "C87", "title": "Incidence belongs to the returned direction of the sun", "statement": "Without refraction, incidence(slope, azimuth) is the cosine of the angle between the returned direction of the sun (zenith, azimuth; azimuth east negative) and the normal of the surface (surface azimuth east positive), although the two are computed along different paths: within 0.005 everywhere, within 0.001 up to 80 degrees of latitude when the sun is at least 6 degrees from the zenith and the nadir. A surface turned to the sun, incidence(zenith, -azimuth), has incidence at least 0.99998.", "quantifier": "all four algorithms, both engines, all use cases, all instants 1677-2262 and places, all slopes and orientations up to 1000 degrees in magnitude, every double arithmetic", "why_tests_cant": "two outputs computed along different paths (true solar time versus the algorithm's hour angle) must agree for a continuum of inputs", "anchors": ["src/sunwhere/_base.py:Sunpos.incidence", "src/sunwhere/_base.py:Sunpos.zenith", "src/sunwhere/_base.py:Sunpos.azimuth"]}
{"id": "C88", "title": "Air mass grows as the sun sinks", "statement": "For each of the four documented air mass models the returned air mass is a non-decreasing function of the returned zenith angle in [0,90] (to 2e-10 in binary64) and strictly increasing from 2 degrees on (for angles 0.0001 degrees apart). It is 1 within 1 degree of the zenith, at most 1/cos(zenith), and at least 0.996/cos(zenith) down to 30 degrees of elevation. Any two models agree within 0.5% down to 5 degrees of elevation and within 6% down to the horizon.", "quantifier": "all pairs of cells of any two results (any algorithm, engine, use case, time, place, refraction), all pairs of models, every double arithmetic", "why_tests_cant": "ordering over a continuum of zenith angles; four formulas with fractional powers", "anchors": ["src/sunwhere/_base.py:Sunpos.airmass"]}
{"id": "C89", "title": "Irradiance falls as the sun sinks", "statement": "For the same solar constant, a cell with the sun no higher and an eccentricity correction factor no larger never has a larger extraterrestrial horizontal irradiance (to 1e-10 of the solar constant), with none of the corrections and with each of the three (although the gonzalez_and_calbo_1999 factor itself grows again near the horizon).", "quantifier": "all pairs of cells of any two results with zenith angles in [0,90], solar constants 1 to 1e5, all four corrections, every double arithmetic", "why_tests_cant": "ordering over a continuum of inputs of a product of competing factors", "anchors": ["src/sunwhere/_base.py:Sunpos.eth", "src/sunwhere/_base.py:Sunpos.airmass"]}
{"id": "C90", "title": "Refraction keeps the order of heights", "statement": "If one cell's zenith angle without refraction is smaller than another's by at least 1e-7 degrees, its zenith angle with refraction is smaller too, for the same algorithm (soltrack: down to 4 degrees below the horizon), although psa and nrel switch the correction off below -0.8334 degrees.", "quantifier": "all four algorithms, any two cells of any calls (engines, use cases, instants 1677-2262, places), every double arithmetic", "why_tests_cant": "ordering over a continuum of elevations of a correction with a switch and a pole", "anchors": ["src/sunwhere/libspa/py_psa.py:_sunpos_one_dimensional", "src/sunwhere/libspa/py_iqbal.py:_sunpos_one_dimensional", "src/sunwhere/libspa/py_soltrack.py:_sunpos_one_dimensional", "src/sunwhere/libspa/ne_nrel.py:_sunpos_one_dimensional", "src/sunwhere/_base.py:Sunpos.zenith"]}
{"id": "C91", "title": "Moving west with the clock, the sun stands still but for the season", "statement": "Without refraction, if two cells of the same algorithm have the same latitude and the second longitude lies one degree to the west of the first per 240 seconds between the instants (whole turns ignored), the cosines of their zenith angles differ by at most 0.00155 + 1.2e-7 per second apart + 0.01746 per degree off that track, and the directions (zenith, azimuth) by at most 0.0097 (0.00151 away from zenith, nadir and poles) plus the same.", "quantifier": "all algorithms and engines, any two cells of any calls, instants 1677-2262, places, every double arithmetic", "why_tests_cant": "relation between two requests over all instants, longitudes and midnights", "anchors": ["src/sunwhere/usecases.py:sites", "src/sunwhere/usecases.py:regular_grid", "src/sunwhere/usecases.py:transect", "src/sunwhere/_core.py", "src/sunwhere/_base.py:Sunpos.zenith", "src/sunwhere/_base.py:Sunpos.azimuth", "src/sunwhere/libspa/ne_psa.py", "src/sunwhere/libspa/ne_nrel.py"]}
{"id": "C92", "title": "Antipodes and poles", "statement": "Without refraction, the cosines of the zenith angles at a place and at the opposite place at the same instant add up to zero within 0.00155; at the north pole the elevation equals the declination, at the south pole minus the declination, within 0.05 degrees at every longitude and instant.", "quantifier": "all algorithms and engines, any cells of any calls, instants 1677-2262, every double arithmetic", "why_tests_cant": "relation between two requests over all instants and places", "anchors": ["src/sunwhere/usecases.py:sites", "src/sunwhere/usecases.py:regular_grid", "src/sunwhere/usecases.py:transect", "src/sunwhere/_core.py", "src/sunwhere/_base.py:Sunpos.zenith", "src/sunwhere/_base.py:Sunpos.azimuth", "src/sunwhere/libspa/ne_psa.py", "src/sunwhere/libspa/ne_nrel.py"]}
{"id": "C93", "title": "The azimuth turns with the clock", "statement": "At one place 30 or more degrees from the equator, between 15 minutes and two hours later the azimuth of the sun (positive to the west) has turned westward in the north and eastward in the south, by less than half a turn (the sine of the difference is at least 0.001 in size), by day and by night, with or without refraction.", "quantifier": "all algorithms and engines, any two cells of any calls at one place (iqbal: in one year), instants 1677-2262, every double arithmetic", "why_tests_cant": "monotonicity over a continuum of instants and places, through midnight and branch cuts", "anchors": ["src/sunwhere/usecases.py:sites", "src/sunwhere/usecases.py:regular_grid", "src/sunwhere/usecases.py:transect", "src/sunwhere/_core.py", "src/sunwhere/_base.py:Sunpos.azimuth", "src/sunwhere/libspa/ne_psa.py", "src/sunwhere/libspa/ne_nrel.py"]}
{"id": "C94", "title": "The sun repeats after four years; iqbal's with the day of the year", "statement": "psa, soltrack and nrel: 1461 days later the declination, the equation of time, the eccentricity factor and, at the same place without refraction, the height of the sun are the same within small explicit tolerances (for psa in 2024: 0.0006 rad, 0.53 minutes). iqbal: two instants with the same day of the year and time of the day give identical results, to the last bit, in any arithmetic, with any refraction flag.", "quantifier": "every algorithm and engine, any calls, instants 1677-2262, every double arithmetic (iqbal: every arithmetic whatever)", "why_tests_cant": "relation between two requests over all instants and places", "anchors": ["src/sunwhere/usecases.py:sites", "src/sunwhere/_core.py", "src/sunwhere/_base.py:Sunpos.declination", "src/sunwhere/_base.py:Sunpos.eot", "src/sunwhere/_base.py:Sunpos.ecf", "src/sunwhere/libspa/py_iqbal.py:day_angle", "src/sunwhere/libspa/ne_iqbal.py:day_angle", "src/sunwhere/libspa/ne_nrel.py", "src/sunwhere/libspa/py_psa.py", "src/sunwhere/libspa/py_soltrack.py"]}
{"id": "C95", "title": "Sunrise and sunset move four minutes per degree of longitude and slowly with the season", "statement": "Between the latitudes of 60 degrees, take two cells on one parallel. Measured from the midnights of their true solar days, the computed UTC instants of sunrise differ by four minutes per degree of longitude, plus at most 0.0047 seconds for every second between the two evaluation times, to a millisecond; sunset likewise. Inside one evaluation, at every latitude where the sun rises, two cells with the same time and latitude differ by exactly four minutes per degree to 15 ns, and their days are equally long to 20 ns.", "quantifier": "all algorithms and engines, any two cells of any calls (iqbal: with its leap-year jump counted as in C79), instants 1677-2262, every double arithmetic", "why_tests_cant": "relation between two requests over a continuum of instants and longitudes, across midnight", "anchors": ["src/sunwhere/_base.py:Sunpos.sunrise", "src/sunwhere/_base.py:Sunpos.sunset", "src/sunwhere/_base.py:Sunpos.daylight_length", "src/sunwhere/_base.py:Sunpos.true_solar_time", "src/sunwhere/usecases.py:sites", "src/sunwhere/usecases.py:regular_grid", "src/sunwhere/usecases.py:transect"]}
{"id": "C96", "title": "The sundial: direction is latitude, season and true solar time; mornings mirror afternoons", "statement": "Two cells of one algorithm and one latitude, at any longitudes and instants, whose returned true solar times of day agree have the same unrefracted direction of the sun, but for the season and the known small tolerances; if the true solar times are mirror images about noon (9:00 and 15:00), the zenith angles agree and the azimuths are opposite. A difference of the true solar times counts 1 degree per 4 minutes.", "quantifier": "all algorithms and engines, any two cells of any calls (iqbal: with its leap-year jump as in C79), all instants 1677-2262, every double arithmetic", "why_tests_cant": "relation between two accessors of two requests over all instants, longitudes and latitudes", "anchors": ["src/sunwhere/_base.py:Sunpos.true_solar_time", "src/sunwhere/_base.py:Sunpos.zenith", "src/sunwhere/_base.py:Sunpos.azimuth", "src/sunwhere/usecases.py:sites", "src/sunwhere/usecases.py:regular_grid", "src/sunwhere/usecases.py:transect"]}
{"id": "C97", "title": "True solar time runs with the clock", "statement": "Between any two requests the returned true solar times advance like the UTC instants plus 4 minutes per degree of longitude, but for 0.0384 percent of the elapsed time and 60 microseconds; so at one longitude, of two requests half a millisecond or more apart, the later one has the later true solar time.", "quantifier": "all algorithms and engines, any two cells of any calls (iqbal: within one year for the order; with its leap-year jump as in C79 for the rate), all instants 1677-2262, every double arithmetic", "why_tests_cant": "relation between two requests over every pair of instants and longitudes, with the rounding of every intermediate value", "anchors": ["src/sunwhere/_base.py:Sunpos.true_solar_time", "src/sunwhere/usecases.py:sites", "src/sunwhere/usecases.py:regular_grid", "src/sunwhere/usecases.py:transect"]}
{"id": "C98", "title": "Day follows day", "statement": "At one place between the latitudes of 60 degrees: the day from the returned sunrise to the returned sunset lasts 5 to 19 hours; two requests in one true solar day give sunrises and sunsets within 7 minutes; two requests in consecutive true solar days give sunrises and sunsets one day apart to 14 minutes, and the next sunrise comes 5 hours or more after the sunset.", "quantifier": "all algorithms and engines (iqbal: both instants in one year), any two cells of any calls at one place with |latitude| <= 60, all instants 1677-2262, every double arithmetic", "why_tests_cant": "relation between the rise and set times of two requests for every pair of instants of the same or consecutive days", "anchors": ["src/sunwhere/_base.py:Sunpos.sunrise", "src/sunwhere/_base.py:Sunpos.sunset", "src/sunwhere/_base.py:Sunpos.true_solar_time", "src/sunwhere/usecases.py:sites", "src/sunwhere/usecases.py:regular_grid", "src/sunwhere/usecases.py:transect"]}
{"id": "C99", "title": "Labels of the returned arrays", "statement": "Every accessor of every result returns an array whose labels along each of its dimensions are those of the request (time: the clock readings as given; latitude and longitude: the coordinates as given; location: 0, 1, ...), and whose elements are what position-wise arithmetic gives: xarray's alignment of operands by label never drops, reorders or rejects anything - NaT and repeated labels included - whatever it would do to differing labels.", "quantifier": "all calls that return, all accessors with all arguments (errors included), every arithmetic, every reflexive comparison of indexes, every behaviour of xarray on indexes that differ", "why_tests_cant": "a wrong label on one of the intermediate arrays silently drops rows only for some inputs (repeated times, NaT, other time zones)", "anchors": ["src/sunwhere/_base.py:Sunpos.__init__", "src/sunwhere/_base.py:Sunpos.zenith", "src/sunwhere/_base.py:Sunpos.azimuth", "src/sunwhere/_base.py:Sunpos.elevation", "src/sunwhere/_base.py:Sunpos.cosz", "src/sunwhere/_base.py:Sunpos.true_solar_time", "src/sunwhere/_base.py:Sunpos.airmass", "src/sunwhere/_base.py:Sunpos.eth", "src/sunwhere/_base.py:Sunpos.sunrise", "src/sunwhere/_base.py:Sunpos.sunset", "src/sunwhere/_base.py:Sunpos.daylight_length", "src/sunwhere/_base.py:Sunpos.incidence"]}
{"id": "C100", "title": "The answers of a cell are those of its own instant and place", "statement": "Two calls with the same algorithm, engine and flag give, for cells of the same instant and place, the same answer of every accessor (air mass, irradiance, sunrise, sunset, day length, incidence, true solar time, ...), or the same error, whatever other times and places were asked for; 'local' answers agree if the clock readings do. A cell of a grid gives the answers of its site alone.", "quantifier": "all pairs of calls that return, all cells, all accessors with all arguments, every arithmetic (grid against sites: exact reals with any float32 rounding)", "why_tests_cant": "independence of every other time and place of the request", "anchors": ["src/sunwhere/_base.py:Sunpos.__init__", "src/sunwhere/_base.py:Sunpos.zenith", "src/sunwhere/_base.py:Sunpos.azimuth", "src/sunwhere/_base.py:Sunpos.elevation", "src/sunwhere/_base.py:Sunpos.cosz", "src/sunwhere/_base.py:Sunpos.true_solar_time", "src/sunwhere/_base.py:Sunpos.airmass", "src/sunwhere/_base.py:Sunpos.eth", "src/sunwhere/_base.py:Sunpos.sunrise", "src/sunwhere/_base.py:Sunpos.sunset", "src/sunwhere/_base.py:Sunpos.daylight_length", "src/sunwhere/_base.py:Sunpos.incidence"]}
{"id": "C101", "title": "Selection by labels", "statement": "In the result of regular_grid, whatever is found under the labels time = w, latitude = la, longitude = lo (each match, when labels repeat) is what a call for that instant and place alone answers; with times in a zone it belongs to an instant whose clock reading is w - over a repeated hour two rows an hour apart bear one label.", "quantifier": "all regular_grid calls that return, all labels, all accessors with all arguments, every arithmetic", "why_tests_cant": "must hold for every grid, every label and every other row", "anchors": ["src/sunwhere/usecases.py:regular_grid", "src/sunwhere/_base.py:Sunpos.__init__", "src/sunwhere/_base.py:Sunpos.zenith", "src/sunwhere/_base.py:Sunpos.azimuth", "src/sunwhere/_base.py:Sunpos.elevation", "src/sunwhere/_base.py:Sunpos.cosz", "src/sunwhere/_base.py:Sunpos.true_solar_time", "src/sunwhere/_base.py:Sunpos.airmass", "src/sunwhere/_base.py:Sunpos.eth", "src/sunwhere/_base.py:Sunpos.sunrise", "src/sunwhere/_base.py:Sunpos.sunset", "src/sunwhere/_base.py:Sunpos.daylight_length", "src/sunwhere/_base.py:Sunpos.incidence"]}
{"id": "C102", "title": "A result keeps its answers whatever the user writes in place", "statement": "After a call has returned, in-place writes into the arrays given as latitude and longitude, or into arrays answered by the result's accessors, never change what the accessors answer later. (False of this code: latitude, longitude, ecf and eot answer the stored array itself, so a write into such an answer changes every later answer computed from it; proved for histories without such writes.)", "quantifier": "all calls that return, all finite histories of accessor calls and in-place writes", "why_tests_cant": "quantifies over unbounded histories of calls and writes", "anchors": ["src/sunwhere/usecases.py:sites", "src/sunwhere/usecases.py:regular_grid", "src/sunwhere/usecases.py:transect", "src/sunwhere/_base.py:Sunpos.__init__", "src/sunwhere/_base.py:Sunpos.latitude", "src/sunwhere/_base.py:Sunpos.longitude", "src/sunwhere/_base.py:Sunpos.ecf", "src/sunwhere/_base.py:Sunpos.eot", "src/sunwhere/_base.py:Sunpos.declination", "src/sunwhere/_base.py:Sunpos.zenith", "src/sunwhere/_base.py:Sunpos.azimuth", "src/sunwhere/_base.py:Sunpos.eth", "src/sunwhere/_base.py:Sunpos.incidence", "src/sunwhere/_base.py:Sunpos.sunrise", "src/sunwhere/_base.py:Sunpos.sunset"]}
{"id": "C103", "title": "Answers tell the coordinates of their places", "statement": "In a result of transect every answer bears the requested latitudes and longitudes as coordinates along time; in a result of sites every answer with a location dimension bears them along location. (False of this code for sites: latitude, longitude, true solar time, sunrise, sunset, day length and incidence lack them; zenith, azimuth, elevation, cosine, air mass and irradiance have them.)", "quantifier": "all calls that return, all accessors with all arguments (errors included), every arithmetic, every reflexive comparison of coordinates", "why_tests_cant": "a coordinate that differs between two operands is silently dropped, for some inputs only", "anchors": ["src/sunwhere/_base.py:Sunpos.__init__", "src/sunwhere/_base.py:Sunpos.latitude", "src/sunwhere/_base.py:Sunpos.longitude", "src/sunwhere/_base.py:Sunpos.ecf", "src/sunwhere/_base.py:Sunpos.eot", "src/sunwhere/_base.py:Sunpos.declination", "src/sunwhere/_base.py:Sunpos.zenith", "src/sunwhere/_base.py:Sunpos.azimuth", "src/sunwhere/_base.py:Sunpos.elevation", "src/sunwhere/_base.py:Sunpos.cosz", "src/sunwhere/_base.py:Sunpos.true_solar_time", "src/sunwhere/_base.py:Sunpos.airmass", "src/sunwhere/_base.py:Sunpos.eth", "src/sunwhere/_base.py:Sunpos.sunrise", "src/sunwhere/_base.py:Sunpos.sunset", "src/sunwhere/_base.py:Sunpos.daylight_length", "src/sunwhere/_base.py:Sunpos.incidence"]}
