{"id": "C01", "title": "Timezone invariance of every instant-based result", "statement": "Two timezone-aware datetimes that denote the same instant (whatever their tzinfo, DST state or local calendar date) give identical results - same value, same warning or same exception - from get_leap_seconds, get_delta_t, get_julian_solar_day, get_julian_ephemeris_day, get_topocentric_position, get_position, get_altitude, get_azimuth, get_altitude_fast, get_azimuth_fast, get_solar_time, get_hour_angle, get_radiation_direct, extraterrestrial_irrad, declination_degree, mean_earth_sun_distance and the clear-sky functions built on them.", "quantifier": "all pairs of aware datetimes with equal UTC instant, all latitudes, longitudes, elevations, temperatures and pressures, any float arithmetic", "why_tests_cant": "infinitely many timezone/offset/instant combinations; a test picks a few zones", "anchors": ["pysolar/solar.py:get_position", "pysolar/solar.py:get_altitude", "pysolar/solartime.py:get_julian_solar_day", "pysolar/numeric.py:tm_yday_math"]}
{"id": "C02", "title": "get_position is exactly get_azimuth paired with get_altitude", "statement": "get_position(lat, lon, when, elevation, temperature, pressure) returns (get_azimuth(lat, lon, when, elevation), get_altitude(lat, lon, when, elevation, temperature, pressure)), bit for bit, and raises exactly when one of the two raises.", "quantifier": "all argument values, all datetimes, any float arithmetic and any libm", "why_tests_cant": "equality must hold for every input and rounding behaviour, not for the three sampled locations", "anchors": ["pysolar/solar.py:get_position", "pysolar/solar.py:get_altitude", "pysolar/solar.py:get_azimuth"]}
{"id": "C03", "title": "Leap-second count matches the official TAI-UTC history", "statement": "For every aware datetime from 1972-01-01 UTC on, get_leap_seconds returns the official TAI-UTC value: 10 plus the number of IERS leap seconds that have taken effect by that UTC instant; before 1972 it returns 10; after the table it stays at 37.", "quantifier": "every aware datetime in years 1..9999, every timezone", "why_tests_cant": "a test checks some dates; every half-year boundary of 54 years and every timezone must be right", "anchors": ["pysolar/solartime.py:get_leap_seconds", "pysolar/solartime.py:leap_seconds_adjustments"]}
{"id": "C04", "title": "Leap-second staleness warning is issued exactly past the table", "statement": "get_leap_seconds issues its 'not available' warning exactly for UTC instants from 2026-07-01 on, never earlier, and the returned value does not depend on whether the warning was issued.", "quantifier": "every aware datetime", "why_tests_cant": "the boundary lies on a half-year in the future of the test run", "anchors": ["pysolar/solartime.py:get_leap_seconds"]}
{"id": "C05", "title": "Delta-T lookup is total and is the table entry of the UTC month", "statement": "get_delta_t never raises IndexError for any aware datetime: inside 1973-02..2014-04 it returns the entry of that UTC year and month, before 1973-02 the first entry, and after 2014-04 an entry of the last year of the table.", "quantifier": "every aware datetime in years 1..9999", "why_tests_cant": "index arithmetic with three clamps has to be right for each of 120k months", "anchors": ["pysolar/solartime.py:get_delta_t", "pysolar/solartime.py:delta_t"]}
{"id": "C06", "title": "Delta-T stays at the last known value after the table ends", "statement": "For every instant after the table ends (2014-04) get_delta_t returns the last tabulated value.", "quantifier": "every aware datetime after April 2014", "why_tests_cant": "tests evaluate get_delta_t only inside the table", "anchors": ["pysolar/solartime.py:get_delta_t"]}
{"id": "C07", "title": "Tables are mutually consistent: implied UT1-UTC stays within 0.9 s", "statement": "For every instant covered by both tables the UT1-UTC implied by the library (leap seconds + 32.184 - Delta-T) is below 0.9 s in absolute value, as the IERS definition of UTC guarantees; delta-T entries lie between 43 and 68 s.", "quantifier": "every instant from 1973-02 to 2014-04", "why_tests_cant": "495 table entries combined with 27 leap seconds at every instant of every month", "anchors": ["pysolar/solartime.py:get_delta_t", "pysolar/solartime.py:get_leap_seconds"]}
{"id": "C08", "title": "Julian ephemeris day is the calendar Julian date in TT", "statement": "get_julian_ephemeris_day(when) equals the Julian date of the UTC calendar date and time (Meeus' Gregorian formula) plus (TAI-UTC + 32.184)/86400 days.", "quantifier": "every aware datetime in years 1..9999", "why_tests_cant": "all 3.6 million calendar days and every microsecond", "anchors": ["pysolar/solartime.py:get_julian_ephemeris_day"]}
{"id": "C09", "title": "Julian ephemeris day is strictly increasing in time", "statement": "A later instant always has a strictly larger Julian ephemeris day, and the difference is at least the elapsed time.", "quantifier": "all pairs of aware datetimes", "why_tests_cant": "pairs of instants around every leap-second boundary", "anchors": ["pysolar/solartime.py:get_julian_ephemeris_day"]}
{"id": "C10", "title": "Julian solar day (UT1) is increasing in time", "statement": "A later instant always has a larger UT Julian day.", "quantifier": "all pairs of aware datetimes", "why_tests_cant": "violations hide in single microseconds at month boundaries", "anchors": ["pysolar/solartime.py:get_julian_solar_day"]}
{"id": "C11", "title": "Naive datetimes are rejected by every entry point taking a time", "statement": "Every library function taking a `when` argument raises NoTimeZoneInfoError for a datetime without tzinfo, whatever the other arguments, and never returns a number for it.", "quantifier": "all public functions with a `when` argument, all naive datetimes, all other arguments", "why_tests_cant": "tests check one naive datetime for some of the functions", "anchors": ["pysolar/tzinfo_check.py:check_aware_dt", "pysolar/solar.py", "pysolar/util.py", "pysolar/radiation.py:get_radiation_direct"]}
{"id": "C12", "title": "The timezone-check decorator is transparent and sound", "statement": "For any wrapped function, any signature and any positional/keyword call: if every checked argument is array-like or has a non-None tzinfo the wrapper returns exactly what the function returns; if some checked argument is a scalar without tzinfo the wrapped function is never called and the error names the first offending argument.", "quantifier": "all functions, signatures, argument lists and keyword dictionaries", "why_tests_cant": "ranges over arbitrary functions and call shapes", "anchors": ["pysolar/tzinfo_check.py:check_aware_dt"]}
{"id": "C13", "title": "Elevation angle and azimuth are the true horizontal coordinates of the sun vector", "statement": "For any latitude, topocentric declination and hour angle, the unit vector with azimuth get_topocentric_azimuth_angle (clockwise from north) and elevation get_topocentric_elevation_angle equals the sun's direction vector rotated into the observer's east-north-up frame.", "quantifier": "all latitudes in [-90,90], all declinations in (-90,90), all hour angles", "why_tests_cant": "quadrant errors of atan2/asin hide in parts of the sphere not sampled", "anchors": ["pysolar/solar.py:get_topocentric_azimuth_angle", "pysolar/solar.py:get_topocentric_elevation_angle"]}
{"id": "C14", "title": "Azimuth is always in [0, 360)", "statement": "get_azimuth, get_position and get_topocentric_azimuth_angle return an azimuth a with 0 <= a < 360.", "quantifier": "all inputs", "why_tests_cant": "wrap-around values have measure zero", "anchors": ["pysolar/solar.py:get_topocentric_azimuth_angle", "pysolar/solar.py:get_azimuth"]}
{"id": "C15", "title": "Altitude is a physical elevation", "statement": "get_altitude equals the geometric elevation in [-90, 90] plus a refraction correction; with standard temperature and pressure the result lies in [-90, 90] and differs from the geometric elevation by less than 0.9 degrees; below -0.83337 degrees no refraction is added.", "quantifier": "all locations and times for which it returns", "why_tests_cant": "continuum of sun positions", "anchors": ["pysolar/solar.py:get_altitude", "pysolar/solar.py:get_refraction_correction"]}
{"id": "C16", "title": "Refraction only ever raises the apparent sun, scales with pressure and inversely with temperature", "statement": "For positive pressure and temperature get_refraction_correction is never negative; it is exactly proportional to pressure and inversely proportional to temperature, zero below the -0.83337 degree threshold.", "quantifier": "all elevations in [-90,90], all positive pressures and temperatures", "why_tests_cant": "sign changes happen within 0.11 degree of the zenith", "anchors": ["pysolar/solar.py:get_refraction_correction"]}
{"id": "C17", "title": "Refraction never raises", "statement": "get_refraction_correction returns a number for every elevation in [-90,90] and positive temperature.", "quantifier": "all elevations in [-90,90]", "why_tests_cant": "the failing elevation is a single point", "anchors": ["pysolar/solar.py:get_refraction_correction"]}
{"id": "C18", "title": "Longitude is only significant modulo 360 degrees", "statement": "Adding 360 degrees (any whole number of turns) to the longitude does not change get_topocentric_position, get_position, get_altitude or get_azimuth.", "quantifier": "all locations, times, whole turns", "why_tests_cant": "infinite family of longitudes", "anchors": ["pysolar/solar.py:get_local_hour_angle"]}
{"id": "C19", "title": "Geocentric right ascension and declination are the ecliptic-to-equatorial rotation", "statement": "For any apparent longitude, obliquity and latitude the returned right ascension (in [0,360)) and declination (in [-90,90]) are the equatorial coordinates of the ecliptic direction rotated by the obliquity.", "quantifier": "all longitudes, latitudes in (-90,90), obliquities", "why_tests_cant": "all quadrants and poles", "anchors": ["pysolar/solar.py:get_geocentric_sun_right_ascension", "pysolar/solar.py:get_geocentric_sun_declination"]}
{"id": "C20", "title": "Observer's projected distances lie on the reference ellipsoid", "statement": "At elevation 0 the projected radial and axial distances satisfy x^2 + (y/0.99664719)^2 = 1, the reduced latitude satisfies tan u = 0.99664719 tan(lat), and elevation moves the point along the geodetic vertical by elevation/6378140.", "quantifier": "all latitudes in [-90,90], all elevations", "why_tests_cant": "continuum of latitudes including the poles", "anchors": ["pysolar/solar.py:get_projected_radial_distance", "pysolar/solar.py:get_projected_axial_distance", "pysolar/solar.py:get_flattened_latitude"]}
{"id": "C21", "title": "Sun-earth distance is physical for every representable date", "statement": "get_sun_earth_distance is within [0.96, 1.04] AU for every date from year 1 to 9999 and within [0.98, 1.02] for years 1000..3000; in particular no division by it can fail.", "quantifier": "all Julian millennia of years 1..9999", "why_tests_cant": "a sum of 59 incommensurate cosines at every instant", "anchors": ["pysolar/solar.py:get_sun_earth_distance", "pysolar/solar.py:get_coeff", "pysolar/constants.py:sun_earth_distance_coeffs"]}
{"id": "C22", "title": "Position functions never fail on physical inputs", "statement": "For every aware datetime in years 1..9999 (in UTC), every finite latitude in [-90,90], longitude, and elevation up to 1e9 m, get_topocentric_position and get_azimuth return finite numbers; get_altitude/get_position do so too with positive temperature whenever the geometric elevation is outside (-5.2,-5.0).", "quantifier": "all physical inputs", "why_tests_cant": "domain errors of asin, divisions and tangents depend on rounding and on single points", "anchors": ["pysolar/solar.py:get_topocentric_position", "pysolar/solar.py:get_altitude"]}
{"id": "C23", "title": "Periodic-term evaluator computes the VSOP polynomial", "statement": "get_coeff(x, table) equals sum over n of x^n * sum over rows of A*cos(B + C*x), for every table and every x.", "quantifier": "all coefficient tables of any shape and all x", "why_tests_cant": "any table size", "anchors": ["pysolar/solar.py:get_coeff"]}
{"id": "C24", "title": "Nutation is the tabulated trigonometric series and is bounded", "statement": "get_nutation pairs each of the 63 argument rows with its coefficient row, equals the published series, and stays below 0.0056 degrees in longitude and 0.0028 degrees in obliquity for years 1000..3000.", "quantifier": "all Julian centuries", "why_tests_cant": "63-term sum at every instant", "anchors": ["pysolar/solar.py:get_nutation", "pysolar/constants.py:nutation_coefficients"]}
{"id": "C25", "title": "Mean sidereal time is reduced to [0,360) and advances by one turn per sidereal day", "statement": "get_mean_sidereal_time is in [0,360), congruent modulo 360 to the IAU expression within 0.02 degrees for all years 1..9999.", "quantifier": "all Julian days of years 1..9999", "why_tests_cant": "all instants", "anchors": ["pysolar/solar.py:get_mean_sidereal_time"]}
{"id": "C26", "title": "Apparent sidereal time uses the obliquity as an angle in degrees", "statement": "get_apparent_sidereal_time equals mean sidereal time plus nutation in longitude times the cosine of the true obliquity angle.", "quantifier": "all Julian days and nutations", "why_tests_cant": "the error is below the tolerance of the existing test", "anchors": ["pysolar/solar.py:get_apparent_sidereal_time"]}
{"id": "C27", "title": "Solar parallax decreases with distance", "statement": "get_equatorial_horizontal_parallax(R) = 8.794/(3600 R) degrees; a larger sun-earth distance gives a smaller parallax.", "quantifier": "all positive distances", "why_tests_cant": "at R close to 1 the wrong and right formula agree to test tolerance", "anchors": ["pysolar/solar.py:get_equatorial_horizontal_parallax"]}
{"id": "C28", "title": "Topocentric declination uses the radial distance in its denominator", "statement": "get_topocentric_sun_declination computes atan2((sin d - y sin p) cos da, cos d - x sin p cos H) with x the radial and y the axial projected distance, i.e. the parallax-shifted direction.", "quantifier": "all inputs", "why_tests_cant": "the effect is below test tolerance", "anchors": ["pysolar/solar.py:get_topocentric_sun_declination", "pysolar/solar.py:get_topocentric_position"]}
{"id": "C29", "title": "Incidence angle is the angle between the surface normal and the sun", "statement": "get_incidence_angle is in [0,180], never raises, and its cosine is the dot product of the unit surface normal (slope, orientation from south) and the unit sun vector (zenith, azimuth from north); a horizontal surface gives back the zenith angle.", "quantifier": "all zenith angles, slopes, orientations, azimuths", "why_tests_cant": "continuum of four angles", "anchors": ["pysolar/solar.py:get_incidence_angle"]}
{"id": "C30", "title": "Zenith angle complements altitude", "statement": "get_topocentric_zenith_angle equals 90 minus the altitude (refraction included) for the same topocentric position, pressure and temperature.", "quantifier": "all inputs", "why_tests_cant": "all inputs", "anchors": ["pysolar/solar.py:get_topocentric_zenith_angle", "pysolar/solar.py:get_altitude"]}
{"id": "C31", "title": "Fast altitude and azimuth are the horizontal coordinates of the approximate sun", "statement": "get_altitude_fast in [-90,90] and get_azimuth_fast in [0,360) are the elevation and azimuth of the direction with declination get_declination and hour angle get_hour_angle; they never raise except at the zenith/nadir.", "quantifier": "all latitudes in (-90,90), longitudes and aware datetimes", "why_tests_cant": "quadrant selection must be right on the whole sphere", "anchors": ["pysolar/solar.py:get_altitude_fast", "pysolar/solar.py:get_azimuth_fast"]}
{"id": "C32", "title": "Declination and equation of time stay in their documented ranges", "statement": "get_declination(day) is within +-23.45 degrees with zeros at day 81 plus half years; equation_of_time is within +-18.9 minutes; get_solar_time advances 4 minutes per degree of longitude; get_hour_angle is 15 degrees per hour from solar noon.", "quantifier": "all days (also fractional), longitudes and datetimes", "why_tests_cant": "all inputs", "anchors": ["pysolar/solar.py:get_declination", "pysolar/solar.py:equation_of_time", "pysolar/solar.py:get_solar_time", "pysolar/solar.py:get_hour_angle"]}
{"id": "C33", "title": "Direct radiation is zero whenever the sun is not above the horizon", "statement": "get_radiation_direct(when, altitude) returns 0 for every altitude <= 0, and never raises.", "quantifier": "all altitudes in [-90,0], all datetimes", "why_tests_cant": "failing altitudes form a 0.017-degree band below the horizon", "anchors": ["pysolar/radiation.py:get_radiation_direct", "pysolar/radiation.py:get_air_mass_ratio"]}
{"id": "C34", "title": "Direct radiation by day is positive, below the extraterrestrial flux and increasing with altitude", "statement": "For altitude in (0,90] the direct radiation lies in [0,1235) W/m^2, below the apparent extraterrestrial flux of that day, and is larger for a higher sun on the same day.", "quantifier": "all altitudes in (0,90], all datetimes", "why_tests_cant": "monotonicity over a continuum", "anchors": ["pysolar/radiation.py:get_radiation_direct"]}
{"id": "C35", "title": "Sunrise <= transit <= sunset, symmetric about transit", "statement": "Whenever get_sunrise_sunset_transit returns, sunrise <= transit <= sunset, transit is the midpoint of sunrise and sunset to the microsecond, all three carry the caller's tzinfo, and the wrappers return exactly the matching components.", "quantifier": "all locations and aware datetimes", "why_tests_cant": "all inputs", "anchors": ["pysolar/util.py:get_sunrise_sunset_transit"]}
{"id": "C36", "title": "At sunrise and sunset the sun's centre is 0.833 degrees below the horizon", "statement": "At the computed hour angle the elevation of the sun with the function's own declination is exactly 90 - 90.833 degrees; the hour angle is the unique solution in [0,12] hours.", "quantifier": "all latitudes and days on which the function returns", "why_tests_cant": "continuum of latitudes and every day", "anchors": ["pysolar/util.py:get_sunrise_sunset_transit"]}
{"id": "C37", "title": "Polar day and night are reported as ValueError, never as a time", "statement": "get_sunrise_sunset_transit raises exactly when no solution of the sunrise equation exists (|cos| > 1), and returns otherwise (away from the poles and the calendar limits), in both numeric modes.", "quantifier": "all latitudes and days", "why_tests_cant": "boundary between polar day and ordinary day", "anchors": ["pysolar/util.py:get_sunrise_sunset_transit"]}
{"id": "C38", "title": "Sunrise instants do not depend on the timezone for the same local date", "statement": "Two aware datetimes with the same local calendar date give the same absolute sunrise, transit and sunset instants, whatever their fixed UTC offsets: exactly when the offsets differ by an even number of microseconds (so for all offsets in whole seconds), and within one microsecond otherwise.", "quantifier": "all pairs of fixed-offset timezones", "why_tests_cant": "all offsets", "anchors": ["pysolar/util.py:get_sunrise_sunset_transit"]}
{"id": "C39", "title": "Transit falls on the requested local day", "statement": "If the UTC offset is within 11 hours of local mean time (offset - longitude/15), the transit time returned is on the caller's local calendar date.", "quantifier": "all locations, offsets and dates", "why_tests_cant": "all inputs", "anchors": ["pysolar/util.py:get_sunrise_sunset_transit"]}
{"id": "C40", "title": "datetime_range is evenly spaced, starts at start and stays before end", "statement": "datetime_range(start, end, step) yields start + n*step for n = 0..k-1 with k the number of whole steps in the span; every element is in [start, end), consecutive elements differ by the step, and it is empty if end <= start.", "quantifier": "all datetimes and positive integer steps", "why_tests_cant": "any length", "anchors": ["pysolar/simulate.py:datetime_range"]}
{"id": "C41", "title": "datetime_range accepts fractional steps and covers the whole span", "statement": "datetime_range accepts a float step_minutes as its stub declares, and yields every start + n*step that is before end.", "quantifier": "all spans and steps", "why_tests_cant": "tests never call it", "anchors": ["pysolar/simulate.py:datetime_range", "pysolar/simulate.pyi"]}
{"id": "C42", "title": "simulate_span samples exactly the position functions at the datetime_range instants", "statement": "simulate_span yields, in order, one tuple per instant of datetime_range with get_altitude, get_azimuth and the horizon entry at the rounded azimuth, with radiation 0 when shaded and get_radiation_direct otherwise; any 361-entry horizon is indexed in bounds.", "quantifier": "all spans, horizons with at least 361 entries, locations", "why_tests_cant": "any length; index 360 reached only for azimuths above 359.5", "anchors": ["pysolar/simulate.py:simulate_span"]}
{"id": "C43", "title": "A 360-entry horizon is enough for simulate_span", "statement": "simulate_span never raises IndexError for a horizon list with one entry per degree (360 entries).", "quantifier": "all sun positions", "why_tests_cant": "needs an azimuth above 359.5", "anchors": ["pysolar/simulate.py:simulate_span"]}
{"id": "C44", "title": "Pressure falls with elevation along the barometric law", "statement": "get_pressure_with_elevation(h) is Ps at h = Hb, positive and strictly decreasing for default parameters up to 44330.7 m, satisfies the hydrostatic scaling P(h) = Ps*(T(h)/Ts)^(gM/(-R Tl)) with T from get_temperature_with_elevation, and warns exactly above 11000 m.", "quantifier": "all elevations", "why_tests_cant": "monotonicity over a continuum", "anchors": ["pysolar/elevation.py:get_pressure_with_elevation", "pysolar/elevation.py:get_temperature_with_elevation"]}
{"id": "C45", "title": "Extraterrestrial irradiance is non-negative, bounded and consistent with the fast altitude", "statement": "extraterrestrial_irrad is 0 when the fast altitude is <= 0, positive when it is > 0, never above 1.0364*SC, and linear in SC.", "quantifier": "all locations and datetimes, SC >= 0", "why_tests_cant": "all inputs", "anchors": ["pysolar/util.py:extraterrestrial_irrad", "pysolar/solar.py:get_altitude_fast"]}
{"id": "C46", "title": "Clear-sky functions honour temperature and pressure", "statement": "global_irradiance_clear depends on the temperature, pressure and turbidity passed to it.", "quantifier": "all inputs", "why_tests_cant": "tests only check for the absence of NoTimeZoneInfoError", "anchors": ["pysolar/util.py:global_irradiance_clear"]}
{"id": "C47", "title": "Mean earth-sun distance varies over the year", "statement": "mean_earth_sun_distance(when) follows the annual variation of the earth-sun distance.", "quantifier": "all datetimes", "why_tests_cant": "no test of the value", "anchors": ["pysolar/util.py:mean_earth_sun_distance"]}
{"id": "C48", "title": "Switching numeric back ends is history independent", "statement": "After any sequence of use_numpy/use_math calls, every math name used by the library is bound to the back end selected last.", "quantifier": "all call histories", "why_tests_cant": "unbounded histories", "anchors": ["pysolar/numeric.py:use_math", "pysolar/numeric.py:use_numpy"]}
{"id": "C49", "title": "Both back ends' date decompositions agree", "statement": "tm_yday, tm_hour and tm_min give the same integers in math mode and numpy mode for every UTC datetime, with 1 <= yday <= 366, 0 <= hour < 24, 0 <= min < 60.", "quantifier": "all datetimes", "why_tests_cant": "all days including leap years and centuries", "anchors": ["pysolar/numeric.py:tm_yday_math", "pysolar/numeric.py:tm_yday_numpy"]}
{"id": "C50", "title": "Nutation cache does not affect results", "statement": "get_aberration_coeffs returns the same coefficient functions on every call of every history, so results never depend on earlier calls.", "quantifier": "all call histories", "why_tests_cant": "unbounded histories", "anchors": ["pysolar/constants.py:get_aberration_coeffs"]}
{"id": "C51", "title": "Broadband REST2 irradiance functions return a value", "statement": "rest.get_broadband_direct_normal_irradiance, get_beam_broadband_irradiance, get_global_broadband_irradiance, get_diffuse_broadband_irradiance and get_backscattered_diffuse_broadband_irradiance return a number for physical inputs.", "quantifier": "all inputs", "why_tests_cant": "universal failure has to be shown for every input", "anchors": ["pysolar/rest.py"]}
{"id": "C52", "title": "REST2 transmittances are physical", "statement": "Rayleigh, gas, ozone, nitrogen, water-vapour and aerosol transmittances lie in (0,1] and equal 1 at zero optical mass, for non-negative optical masses in the model's range.", "quantifier": "all optical masses and amounts in range, both bands", "why_tests_cant": "rational functions over a continuum", "anchors": ["pysolar/rest.py:get_rayleigh_transmittance", "pysolar/rest.py:get_gas_transmittance", "pysolar/rest.py:get_aerosol_transmittance"]}
{"id": "C53", "title": "REST2 optical masses are 1 at the zenith", "statement": "The Rayleigh, ozone, water and aerosol optical masses at altitude 90 degrees are 1 (within 1 percent) at standard pressure.", "quantifier": "altitude 90", "why_tests_cant": "no test", "anchors": ["pysolar/rest.py:get_optical_mass_rayleigh"]}
{"id": "C54", "title": "Vectorised evaluation is elementwise", "statement": "With numpy arrays of locations the fast functions, refraction and radiation return the array of the scalar results.", "quantifier": "all array shapes and contents", "why_tests_cant": "any array length", "anchors": ["pysolar/solar.py:get_altitude_fast", "pysolar/solar.py:get_azimuth_fast", "pysolar/radiation.py:get_radiation_direct"]}
{"id": "C55", "title": "Topocentric position is the composition of the documented steps", "statement": "get_topocentric_position returns the topocentric declination and hour angle of the VSOP87 sun: heliocentric series reversed, nutation and aberration added to the longitude, rotated by the true obliquity, local hour angle from sidereal time and longitude, shifted by the parallax of the observer's point on the ellipsoid - with the three deviations C26, C27 and C28 as they are in the code.", "quantifier": "all latitudes, longitudes, elevations to 1e11 m, aware datetimes in years 1..9999", "why_tests_cant": "a test compares a few positions to a table; wiring errors below its tolerance or outside its dates pass", "anchors": ["pysolar/solar.py:get_topocentric_position"]}
{"id": "C56", "title": "The position returned is within 0.1 degrees of the published algorithm", "statement": "The direction given by get_topocentric_position differs by at most 0.1 degrees of arc from the direction of the published NREL SPA / Meeus algorithm (correct sidereal time, parallax and topocentric declination) for the same Julian days.", "quantifier": "all latitudes, longitudes, elevations to 100 km, aware datetimes in years 1..9999", "why_tests_cant": "the tests compare about ten instants with reference values", "anchors": ["pysolar/solar.py:get_topocentric_position", "pysolar/solar.py:get_apparent_sidereal_time", "pysolar/solar.py:get_equatorial_horizontal_parallax", "pysolar/solar.py:get_topocentric_sun_declination"]}
{"id": "C57", "title": "Both back ends return the same numbers", "statement": "Wherever the math back end returns a number for scalars, the numpy back end returns the same number (in real arithmetic), whichever of the arguments are numpy.float64: get_topocentric_position, get_position, get_altitude, get_azimuth, the fast functions, get_radiation_direct, extraterrestrial_irrad, clear_index and get_sunrise_sunset_transit. For the functions reading the clock the UTC offset must be a whole number of minutes (C49).", "quantifier": "all arguments, all aware datetimes", "why_tests_cant": "the tests run each back end on a handful of points", "anchors": ["pysolar/numeric.py", "pysolar/solar.py", "pysolar/util.py"]}
{"id": "C58", "title": "declination_degree is the yearly declination", "statement": "declination_degree(when, TY) is 23.45 sin(2 pi (n-81)/TY) degrees for the UTC day number n of when, so it lies in [-23.45, 23.45]; it equals get_declination(n) for TY = 365, and TY = 0 raises ZeroDivisionError.", "quantifier": "all aware datetimes, all TY", "why_tests_cant": "tests check only that aware datetimes are accepted", "anchors": ["pysolar/util.py:declination_degree", "pysolar/solar.py:get_declination"]}
{"id": "C59", "title": "Under overcast skies global and diffuse irradiance are equal", "statement": "As the docstrings say, global_irradiance_overcast(...) equals diffuse_underovercast(...) for the same arguments.", "quantifier": "all places, aware datetimes, turbidities", "why_tests_cant": "no test compares the two", "anchors": ["pysolar/util.py:global_irradiance_overcast", "pysolar/util.py:diffuse_underovercast", "pysolar/util.py:diffuse_underclear"]}
{"id": "C60", "title": "The solar elevation functions are polynomials in the sine of the altitude", "statement": "solarelevation_function_clear is 0.038175 + 1.5458 s - 0.59980 s^2 and solarelevation_function_overcast is -0.0067133 + 0.78600 s + 0.22401 s^2 with s the sine of the solar altitude.", "quantifier": "all places and aware datetimes", "why_tests_cant": "no test of the value", "anchors": ["pysolar/util.py:solarelevation_function_clear", "pysolar/util.py:solarelevation_function_overcast"]}
{"id": "C61", "title": "Direct clear-sky irradiance is between 0 and the solar constant", "statement": "With the sun above the horizon direct_underclear returns a value in [0, 1367] W/m^2 for the default arguments.", "quantifier": "all places and aware datetimes with the sun up", "why_tests_cant": "no test of the value", "anchors": ["pysolar/util.py:direct_underclear", "pysolar/util.py:global_irradiance_clear"]}
{"id": "C62", "title": "Clearness index and diffuse ratio are the documented quotients", "statement": "clear_index(ghi, lat, lon, when) is ghi divided by the extraterrestrial irradiance on a horizontal plane when the sun is up and raises ZeroDivisionError when it is not; diffuse_ratio(d, g) is d/g and raises ZeroDivisionError exactly when g = 0.", "quantifier": "all irradiances, places and aware datetimes", "why_tests_cant": "tests check only that aware datetimes are accepted", "anchors": ["pysolar/util.py:clear_index", "pysolar/util.py:diffuse_ratio"]}
{"id": "C63", "title": "REST2 scattering functions obey their physical laws", "statement": "Sky albedos lie in (0,1); the backscattered irradiance x satisfies x = rho_ground rho_sky (direct + diffuse + x); the aerosol optical depth obeys Angstrom's law; forward-scattered fractions lie in (0,1) and the aerosol one grows with the altitude; scattering correction factors are positive.", "quantifier": "all arguments in the model's range, both bands", "why_tests_cant": "no tests exist for rest.py", "anchors": ["pysolar/rest.py:get_sky_albedo", "pysolar/rest.py:get_backscattered_diffuse_irradiance_by_band", "pysolar/rest.py:get_aerosol_optical_depth", "pysolar/rest.py:get_aerosol_forward_scatterance_factor"]}
{"id": "C64", "title": "REST2 component functions return the published parametrisation", "statement": "The Rayleigh, gas, ozone and water-vapour transmittances, the scattering correction factors, the sky albedos and the forward scattering fractions are the published rational functions in both bands; aerosol transmittances follow Beer's law, with single-scattering albedos 0.92 and 0.84 for scattering.", "quantifier": "all arguments in the model's range, both bands", "why_tests_cant": "no tests exist for rest.py", "anchors": ["pysolar/rest.py"]}
{"id": "C65", "title": "The nitrogen transmittance depends on the amount passed", "statement": "get_nitrogen_transmittance(band, mass, amount) is the published transmittance for that amount of NO2, in particular 1 for none.", "quantifier": "all masses and amounts", "why_tests_cant": "no tests exist for rest.py", "anchors": ["pysolar/rest.py:get_nitrogen_transmittance"]}
{"id": "C66", "title": "The stub files describe the functions", "statement": "For every function in the .pyi files, a call binds its arguments to parameters in the same way under the stub's signature and under the implementation's.", "quantifier": "all functions with a stub, all lists of positional and keyword arguments", "why_tests_cant": "stubs are not executed by any test", "anchors": ["pysolar/util.pyi", "pysolar/solar.pyi", "pysolar/radiation.pyi"]}
{"id": "C67", "title": "The Delta-T table generator and lookup round-trip", "statement": "For consecutive monthly entries util/get_delta_t prints a table in which get_delta_t's lookup finds every entry under its own year and month; input with a gap, a wrong day or the wrong order stops at an assertion; the table in solartime.py has the printed form.", "quantifier": "all lists of entries with months 1..12", "why_tests_cant": "the script has no tests", "anchors": ["util/get_delta_t", "pysolar/solartime.py:get_delta_t"]}
{"id": "C68", "title": "Every function taking when checks it in every call form", "statement": "However `when` is passed (position or keyword, with defaults or extra arguments), a datetime with a time zone (or a numpy datetime) reaches the function, a naive datetime raises NoTimeZoneInfoError and any other value raises ValueError, except in get_azimuth_fast and get_radiation_direct, which are not decorated.", "quantifier": "all decorated functions, all argument lists that pass `when`", "why_tests_cant": "tests use one call form per function", "anchors": ["pysolar/tzinfo_check.py", "pysolar/util.py", "pysolar/solar.py", "pysolar/radiation.py"]}
{"id": "C69", "title": "The azimuth in double precision is in [0,360)", "statement": "With the math back end in IEEE double arithmetic, get_azimuth, get_position and get_topocentric_azimuth_angle return, when they return, NaN or a float in [0, 360): rounding never produces 360.", "quantifier": "all float inputs, all C libraries whose atan2 stays within [-M_PI, M_PI]", "why_tests_cant": "the rounding cases next to 360 are isolated floats", "anchors": ["pysolar/solar.py:get_topocentric_azimuth_angle", "pysolar/solar.py:get_azimuth", "pysolar/solar.py:get_position"]}
{"id": "C70", "title": "Angles reduced modulo 360 are below 360 in double precision", "statement": "In IEEE double arithmetic the geocentric and heliocentric longitudes, right ascension, hour angle and sidereal time, all reduced with % 360, lie in [0, 360).", "quantifier": "all float inputs, any C library", "why_tests_cant": "the failing inputs are tiny negative angles", "anchors": ["pysolar/solar.py:get_local_hour_angle", "pysolar/solar.py:get_geocentric_longitude", "pysolar/solar.py:get_heliocentric_longitude", "pysolar/solar.py:get_mean_sidereal_time"]}
{"id": "C71", "title": "The elevation angle is defined for every sun direction in double precision", "statement": "In IEEE double arithmetic get_topocentric_elevation_angle returns an angle in [-90, 90] for all finite latitudes, declinations and hour angles.", "quantifier": "all finite inputs, all correctly rounded C libraries", "why_tests_cant": "raises only where rounding pushes a sine above 1", "anchors": ["pysolar/solar.py:get_topocentric_elevation_angle", "pysolar/solar.py:get_altitude"]}
{"id": "C72", "title": "The incidence angle is defined for every orientation in double precision", "statement": "In IEEE double arithmetic get_incidence_angle returns an angle in [0, 180] for all finite zenith angles, slopes and orientations.", "quantifier": "all finite inputs, all correctly rounded C libraries", "why_tests_cant": "raises only where rounding pushes a cosine above 1", "anchors": ["pysolar/solar.py:get_incidence_angle"]}
{"id": "C73", "title": "The fast azimuth is defined at every place and time in double precision", "statement": "In IEEE double arithmetic get_azimuth_fast returns an angle in [0, 360] at every place and time.", "quantifier": "all finite places, all aware datetimes, all correctly rounded C libraries", "why_tests_cant": "fails when the declination is 0 on the equator, for some minutes of one day", "anchors": ["pysolar/solar.py:get_azimuth_fast"]}
{"id": "C74", "title": "Julian days are accurate to 0.15 ms in double precision", "statement": "In IEEE double arithmetic get_julian_solar_day and get_julian_ephemeris_day return for every aware datetime, within 1.7e-9 day of the exact value (3.1e-10 day from 1834 to 2105).", "quantifier": "all aware datetimes whose UTC instant is in the years 1 to 9999", "why_tests_cant": "tests compare a few dates with 2 to 6 decimals", "anchors": ["pysolar/solartime.py:get_julian_solar_day", "pysolar/solartime.py:get_julian_ephemeris_day"]}
{"id": "C75", "title": "The Julian ephemeris day increases with time in double precision", "statement": "In IEEE double arithmetic a later instant has a larger Julian ephemeris day.", "quantifier": "all pairs of aware datetimes", "why_tests_cant": "needs instants closer than the rounding of a Julian day", "anchors": ["pysolar/solartime.py:get_julian_ephemeris_day"]}
{"id": "C76", "title": "The sun's position is accurate to a few millionths of a degree in double precision", "statement": "In IEEE double arithmetic with a C library accurate to 1 ulp, get_topocentric_position returns at every place and datetime a declination within 1.7e-8 degrees and an hour angle (modulo a turn) within 1.35e-6 degrees of what the same formulas give in exact arithmetic; from 1834 to 2105 within 8.1e-10 and 2.25e-7 degrees.", "quantifier": "all double latitudes in [-90,90], longitudes in [-360,360], elevations within 100 km, all aware datetimes of the years 1 to 9999, all such C libraries", "why_tests_cant": "rounding errors pile up over 150 trigonometric terms with arguments of up to 10^7 radians; tests compare a few dates with 4 to 6 decimals", "anchors": ["pysolar/solar.py:get_topocentric_position", "pysolar/solar.py:get_coeff"]}
{"id": "C77", "title": "The azimuth is accurate in double precision", "statement": "In IEEE double arithmetic get_azimuth returns, whenever the exact elevation angle E is not within 0.0006 degrees of the zenith or nadir, and its value is within 2e-6/cos(E) degrees (3.3e-7/cos(E) from 1834 to 2105) of the exact one, modulo a turn.", "quantifier": "as C76", "why_tests_cant": "the error grows without bound towards the zenith; tests do not go there", "anchors": ["pysolar/solar.py:get_azimuth", "pysolar/solar.py:get_topocentric_azimuth_angle"]}
{"id": "C78", "title": "The altitude is accurate in double precision and fails only at the zenith or nadir", "statement": "In IEEE double arithmetic get_altitude is within 1.7e-5 degrees of its exact value (2.8e-6 when the sun is 1 degree off the zenith, 4.6e-7 then from 1834 to 2105), for temperatures of 180 to 340 K and pressures up to 110000 Pa, unless the elevation angle is within the refraction formula's singular band (-5.21,-4.99) or within 1e-5 degrees of its jump at -0.83337; the only exception it raises is ValueError, and only with the sun within 0.00002 degrees of the zenith or nadir.", "quantifier": "as C76, all temperatures and pressures in those ranges", "why_tests_cant": "asin loses half the digits near 90 degrees and a sine rounding above 1 raises; the windows have to be found by proof", "anchors": ["pysolar/solar.py:get_altitude", "pysolar/solar.py:get_topocentric_elevation_angle", "pysolar/solar.py:get_refraction_correction"]}
{"id": "C79", "title": "The doubles returned are within 0.100002 degrees of the published algorithm", "statement": "In IEEE double arithmetic the direction given by the declination and hour angle of get_topocentric_position is within 0.100002 degrees of the direction of the published solar position algorithm in exact arithmetic.", "quantifier": "as C76", "why_tests_cant": "an end-to-end bound over 10000 years and all places, including every rounding", "anchors": ["pysolar/solar.py:get_topocentric_position"]}
{"id": "C80", "title": "The fast approximation points within 2.1 degrees of the full computation", "statement": "For every instant from 1901 to 2099 the direction given by get_declination and get_hour_angle (day of year, whole UTC minute) is within 2.1 degrees on the sky of the direction returned by get_topocentric_position; separately the declinations differ by at most 1.867 degrees and the hour angles by -0.685 to 0.925 degrees modulo a turn.", "quantifier": "all aware datetimes whose instant is in 1901-2099, all latitudes, longitudes, and elevations of up to 100 km above or below sea level", "why_tests_cant": "the approximation is worst on a few days of a few years of the leap-year cycle; the bound is on the whole two centuries and the whole earth", "anchors": ["pysolar/solar.py:get_declination", "pysolar/solar.py:get_hour_angle", "pysolar/solar.py:equation_of_time", "pysolar/solar.py:get_topocentric_position"]}
{"id": "C81", "title": "get_altitude_fast is close to get_altitude", "statement": "From 1901 to 2099 get_altitude_fast always returns, within 2.1 degrees of the full computation's geometric elevation angle; and within 3 degrees of get_altitude under standard conditions whenever that returns.", "quantifier": "as C80", "why_tests_cant": "a bound over all places and two centuries", "anchors": ["pysolar/solar.py:get_altitude_fast", "pysolar/solar.py:get_altitude", "pysolar/solar.py:get_topocentric_elevation_angle"]}
{"id": "C82", "title": "get_azimuth_fast is close to get_azimuth", "statement": "From 1901 to 2099, whenever get_altitude_fast is between -60 and 60 degrees, get_azimuth_fast returns and is within 4.4 degrees of get_azimuth modulo a turn.", "quantifier": "as C80, latitudes strictly between the poles", "why_tests_cant": "the quadrant decision of the fast azimuth is wrong on a set of places and times that samples miss; the bound excludes every flip", "anchors": ["pysolar/solar.py:get_azimuth_fast", "pysolar/solar.py:get_azimuth"]}
{"id": "C83", "title": "At the computed sunrise and sunset the full computation puts the sun at the horizon", "statement": "From 1901 to 2099, at the sunrise and sunset returned by get_sunrise_sunset_transit, in any time zone, the geometric elevation angle of the full computation (get_topocentric_position, get_topocentric_elevation_angle) is -0.833 degrees within 1.34 degrees.", "quantifier": "all aware datetimes whose local date is in 1901-2099, all latitudes strictly between the poles at which the function returns, longitudes in [-180,180], observer elevations up to 100 km", "why_tests_cant": "two independent algorithms compared over all places, zones and two centuries; the exception needs a clock change between the argument and sunrise", "anchors": ["pysolar/util.py:get_sunrise_sunset_transit", "pysolar/solar.py:get_topocentric_position", "pysolar/solar.py:get_topocentric_elevation_angle"]}
{"id": "C84", "title": "The sun rises in the east and sets in the west", "statement": "Under the hypotheses of C83, with the UTC offset at that moment the one at the argument, and a day lasting from four minutes to 23 hours 56 minutes: get_azimuth at the computed sunrise is strictly between 0 and 180 degrees, and at the computed sunset strictly between 180 and 360.", "quantifier": "as C83", "why_tests_cant": "all places, zones and two centuries", "anchors": ["pysolar/util.py:get_sunrise_sunset_transit", "pysolar/solar.py:get_azimuth"]}
{"id": "C85", "title": "At the computed transit the sun is on the meridian", "statement": "Under the hypotheses of C84 (any length of day for which the function returns) the hour angle of the full computation at the computed transit is 0 modulo a turn within 0.447 degrees, that is 1 minute 48 seconds of time.", "quantifier": "as C83", "why_tests_cant": "all places, zones and two centuries", "anchors": ["pysolar/util.py:get_sunrise_sunset_transit", "pysolar/solar.py:get_topocentric_position"]}
{"id": "C86", "title": "Antipodes see opposite elevations", "statement": "At one instant, for any place and its antipode (latitude negated, longitude plus 180), at any heights up to 100 km, the topocentric elevation angles computed from get_topocentric_position and get_topocentric_elevation_angle add up to 0 within 0.016 degrees (the two parallaxes).", "quantifier": "every aware datetime from year 1 to 9999, every place", "why_tests_cant": "a relation between two continuous families of calls", "anchors": ["pysolar/solar.py:get_topocentric_position", "pysolar/solar.py:get_topocentric_elevation_angle"]}
{"id": "C87", "title": "Moving the observer changes the elevation by at most the distance moved", "statement": "At one instant, for any two places whose verticals are g degrees apart, and any two heights within 100 km of sea level, the two topocentric elevation angles differ by at most g + 0.016 degrees.", "quantifier": "every aware datetime from year 1 to 9999, all pairs of places", "why_tests_cant": "all pairs of places at all instants", "anchors": ["pysolar/solar.py:get_topocentric_position", "pysolar/solar.py:get_topocentric_elevation_angle"]}
{"id": "C88", "title": "The sun moves smoothly at 15 degrees an hour", "statement": "For any two instants D days apart seen from one place: the hour angles differ, modulo whole turns, by 360 D within 0.16 |D| + 0.052 degrees; the declinations by at most 0.466 |D| + 0.024; the elevation angles by at most 360.63 |D| + 0.076.  So no result ever jumps by more than 0.076 degrees, in spite of the steps of the Delta-T and leap second tables.", "quantifier": "all pairs of instants from year 1 to 9999, every place", "why_tests_cant": "all pairs of instants; the jumps would be at the ends of months", "anchors": ["pysolar/solar.py:get_topocentric_position", "pysolar/solar.py:get_topocentric_elevation_angle", "pysolar/solartime.py:get_delta_t"]}
{"id": "C89", "title": "The sun stays between the tropics", "statement": "From 1901 to 2099 the topocentric declination is within 23.467 degrees of the equator, and the elevation angle at latitude lat is between |lat + dec| - 90 and 90 - |lat - dec|, in particular within 113.467 - |lat| of 0.", "quantifier": "every aware datetime from 1901 to 2099, every place", "why_tests_cant": "a bound over two centuries and all places", "anchors": ["pysolar/solar.py:get_topocentric_position", "pysolar/solar.py:get_topocentric_elevation_angle"]}
{"id": "C90", "title": "The sun passes every hour angle every day", "statement": "On every UTC day of the years 1 to 9999, at every place, for every hour angle g, there is an instant of that day at which the hour angle returned by get_topocentric_position is g within 0.213 degrees modulo whole turns.", "quantifier": "all days, places and hour angles", "why_tests_cant": "an existence claim for every day and place", "anchors": ["pysolar/solar.py:get_topocentric_position"]}
{"id": "C91", "title": "Below 65.5 degrees of latitude every day has day and night", "statement": "On every UTC day of the years 1 to 9999, at every place with latitude between -65.5 and 65.5, there is an instant at which the elevation angle is above 0.2 degrees and one at which it is below -0.2.", "quantifier": "all days, all places between the polar circles", "why_tests_cant": "an existence claim for every day and place", "anchors": ["pysolar/solar.py:get_topocentric_position", "pysolar/solar.py:get_topocentric_elevation_angle"]}
{"id": "C92", "title": "The quick altitude is accurate in double precision", "statement": "With floats in IEEE binary64 and a C library within a relative error of 2^-52: get_declination, equation_of_time and get_hour_angle return doubles within 1.2e-13 degrees, 1.7e-13 minutes and 7.4e-13 degrees of the exact values of the same formulas; get_altitude_fast within 1.9e-5 degrees, and within 1.2e-10 unless the sun is within a degree of the zenith or nadir; it raises ValueError only within 2e-5 degrees of those.", "quantifier": "every such library, every aware datetime from year 1 to 9999, all latitudes, all longitudes within 360", "why_tests_cant": "all inputs and all conforming C libraries; exact values are not available to a test", "anchors": ["pysolar/solar.py:get_altitude_fast", "pysolar/solar.py:get_declination", "pysolar/solar.py:equation_of_time", "pysolar/solar.py:get_hour_angle"]}
{"id": "C93", "title": "The quick azimuth is accurate in double precision", "statement": "As C92, for latitudes within 89.999 degrees and the sun at least a degree from zenith and nadir: get_azimuth_fast returns a double within 0.0015 degrees of the exact azimuth modulo a turn, within 1.3e-6 degrees if the azimuth is at least 0.6 degrees from due east and due west; it raises ValueError only within 0.001 degrees of due east or due west.", "quantifier": "every such library, every aware datetime, all latitudes within 89.999, all longitudes within 360", "why_tests_cant": "all inputs and all conforming C libraries; the loss of digits is confined to a sliver of the sky", "anchors": ["pysolar/solar.py:get_azimuth_fast"]}
{"id": "C94", "title": "The clear-sky irradiance is accurate in double precision", "statement": "With floats in IEEE binary64 and a C library within a relative error of 2^-52, get_radiation_direct returns a double within 3e-12 W/m2 of the exact value of the same formulas for altitudes from 1e-270 to 90 degrees, and zero, as in exact arithmetic, for altitudes from -90 to -0.0175 degrees; it never raises there.", "quantifier": "every such library, every aware datetime of years 1 to 9999, every double altitude in those ranges", "why_tests_cant": "all inputs and all conforming C libraries; near the horizon the air mass and the exponent are huge, so a bound needs the relative errors, not samples", "anchors": ["pysolar/radiation.py:get_radiation_direct", "pysolar/radiation.py:get_air_mass_ratio", "pysolar/radiation.py:get_apparent_extraterrestrial_flux", "pysolar/radiation.py:get_optical_depth"]}
{"id": "C95", "title": "The clear-sky irradiance varies by at most 84.1 W/m2 per degree", "statement": "For two altitudes above the horizon the irradiances on the same day differ by at most 84.1 W/m2 per degree of difference in altitude; in binary64 an altitude that is e degrees off gives a double within 84.1 e + 3e-12 of the irradiance of the true altitude.", "quantifier": "all pairs of altitudes in (0, 90], every aware datetime; in binary64 every conforming C library", "why_tests_cant": "a bound on all pairs, including altitudes arbitrarily close to the horizon", "anchors": ["pysolar/radiation.py:get_radiation_direct"]}
{"id": "C96", "title": "Sunrise, sunset and transit are accurate in double precision", "statement": "With floats in IEEE binary64 and a C library within a relative error of 2^-52, get_sunrise_sunset_transit agrees with exact arithmetic: transit within one microsecond; sunrise and sunset within one microsecond when the cosine of the rising hour angle is at most 0.99 in size, within 50 ms up to 1 - 2e-12; and if it is at least 1 + 2e-12 in size both raise ValueError. So rounding decides whether the sun rises only in a band of width 4e-12.", "quantifier": "every such library, every aware datetime at least three days inside the calendar, latitudes within 89 degrees, longitudes within 180", "why_tests_cant": "all inputs and all conforming C libraries; the loss of digits where the sun barely rises is confined to a set tests will not hit", "anchors": ["pysolar/util.py:get_sunrise_sunset_transit"]}
{"id": "C97", "title": "The numpy back end gives the same doubles, and arrays never raise", "statement": "In IEEE binary64, when both back ends use the same elementary functions and pow agrees with Python's ** where that returns, every double returned by the position functions, the quick altitude and azimuth, the solar time and hour angle and the sunrise function with the math back end is returned by the numpy back end too, for any mixture of Python floats and numpy.float64 arguments; element i of the result for arrays is the double the math call gives on the i-th elements. For arrays the position functions, the quick functions and the irradiance return for every library and all elements, nan and infinities included. Hence the error bounds of C76 and C77 hold for numpy with any library of that accuracy.", "quantifier": "every such C library, all doubles, all arrays of any shape, every aware datetime (of years 1 to 9999; whole-minute offset for the quick functions)", "why_tests_cant": "all inputs and libraries; the two back ends differ in what raises, so agreement rests on every operation on every path", "anchors": ["pysolar/numeric.py", "pysolar/solar.py:get_position", "pysolar/solar.py:get_azimuth", "pysolar/solar.py:get_altitude", "pysolar/solar.py:get_altitude_fast", "pysolar/solar.py:get_azimuth_fast", "pysolar/util.py:get_sunrise_sunset_transit"]}
{"id": "C98", "title": "The two back ends give the same irradiance in double precision", "statement": "In IEEE binary64 get_radiation_direct returns the same double with numpy as with math for every altitude.", "quantifier": "every C library used by both, all double altitudes, every aware datetime", "why_tests_cant": "fails at a single double, -0.0, where 1/sin is caught as ZeroDivisionError by one back end and is -inf in the other", "anchors": ["pysolar/radiation.py:get_radiation_direct", "pysolar/radiation.py:get_air_mass_ratio", "pysolar/numeric.py"]}
{"id": "C99", "title": "The calendar follows the seasons, with midnight sun and polar night", "statement": "From 1901 to 2099, on UTC days 82 to 264 of the year the sun's declination is positive, up to day 77 and from day 268 it is negative; on days 169 to 176 it is at least 23.3 degrees and on days 353 to 359 at most -23.3. Hence on the June days get_altitude is positive all day at every latitude from 66.71 north, for any positive temperature and non-negative pressure, and at most -0.9 whenever it returns at every latitude from 67.6 south, and the other way round on the December days. At the poles the elevation is plus or minus the declination: half a year of day, half a year of night.", "quantifier": "every aware datetime of 1901 to 2099, every latitude, longitude and elevation within 100 km, every time of day", "why_tests_cant": "every instant of two centuries and every place; a sign error in a rarely reached term or a leap-year slip shows only on a few dates", "anchors": ["pysolar/solar.py:get_topocentric_position", "pysolar/solar.py:get_altitude", "pysolar/solar.py:get_topocentric_elevation_angle"]}
{"id": "C100", "title": "The sun is in the east before noon, due south at noon and in the west after", "statement": "When the hour angle of get_topocentric_position is between -180 and 0 (mod 360) get_azimuth is strictly between 0 and 180, between 0 and 180 it is strictly between 180 and 360. From 1901 to 2099, when it is 0 the elevation is 90 - |latitude - declination| and the azimuth is exactly 180 from latitude 23.47 north, exactly 0 from 23.47 south. At the transit computed by get_sunrise_sunset_transit (no clock change in between) the azimuth is within 4 degrees of south from latitude 30 north and within 4 degrees of north from 30 south.", "quantifier": "every aware datetime (of years 1 to 9999; 1901 to 2099 for the noon part), every latitude, longitude and elevation within 100 km", "why_tests_cant": "all places and instants, and it ties three functions together", "anchors": ["pysolar/solar.py:get_azimuth", "pysolar/solar.py:get_topocentric_position", "pysolar/solar.py:get_topocentric_elevation_angle", "pysolar/util.py:get_sunrise_sunset_transit"]}
{"id": "C101", "title": "The irradiance of the computed altitude is accurate in double precision", "statement": "Passing the double returned by get_altitude to get_radiation_direct gives a double within 2.4e-4 W/m2 (3.9e-5 for 1834 to 2105) of the same two calls in exact arithmetic when the true elevation is between 0.00001 and 89 degrees, and exactly 0 when the sun is below -0.8334 degrees, except within 0.11 degree of the singularity of the refraction formula near -5.1 degrees.", "quantifier": "every accurate C library, aware datetime of years 1 to 9999, latitude, longitude, elevation within 100 km, temperature of 180 to 340 K and pressure up to 110000 Pa, all as doubles", "why_tests_cant": "errors compose through some two thousand floating-point operations for every input", "anchors": ["pysolar/solar.py:get_altitude", "pysolar/radiation.py:get_radiation_direct"]}
{"id": "C102", "title": "The incidence angle is accurate in double precision and fails only facing the sun", "statement": "For angles within 360 degrees get_incidence_angle in doubles either returns a value within 1.28e-5 degrees of the exact one (within 7e-12 when the exact one is between 10 and 170 degrees), or raises ValueError, and then the exact angle is within 0.00001 degree of 0 or 180.", "quantifier": "every accurate C library and all double arguments within 360 degrees", "why_tests_cant": "the failures occupy tiny sets around two directions; the bound is over all four arguments", "anchors": ["pysolar/solar.py:get_incidence_angle"]}
{"id": "C103", "title": "Pressure and temperature at an elevation are accurate in double precision", "statement": "For elevations between -20 and 20 km get_pressure_with_elevation returns a double within a relative error 2.1e-14 of the barometric formula and warns exactly above 11000 m, and get_temperature_with_elevation is within 1.1e-13 K of 288.15 - 0.0065 h.", "quantifier": "every accurate C library and every double elevation within 20 km", "why_tests_cant": "an error bound over all doubles, including the conditioning of pow", "anchors": ["pysolar/elevation.py:get_pressure_with_elevation", "pysolar/elevation.py:get_temperature_with_elevation"]}
{"id": "C104", "title": "From data file to Python table and back, as text", "statement": "If every line of the data file is blank or holds year, month, day and a value of at most four decimals, and the entries are consecutive first-of-month ones, util/get_delta_t ends normally; the text it writes is Python that binds delta_t_base_year, delta_t_base_month and delta_t to one table and no other, that table holds the doubles of the file in order, and get_delta_t's lookup in it finds each. Entries that are not such a sequence (months 1 to 12) end in AssertionError; a line of one to three words, after any proper beginning, ends in ValueError.", "quantifier": "all file texts: any number of lines, any blanks, any digits", "why_tests_cant": "unbounded text in, unbounded text out, and reading the output back is quantified over all readings", "anchors": ["util/get_delta_t:parse_data", "pysolar/solartime.py:get_delta_t"]}
{"id": "C105", "title": "What util/get_delta_t writes can be read and is right to four decimals", "statement": "Whenever util/get_delta_t accepts consecutive monthly entries and ends normally, the text it writes is a Python table whose values differ from those read by at most half of the fourth decimal and rounding.", "quantifier": "all file texts that parse, including signs, underscores and exponents", "why_tests_cant": "quantifies over everything int() and float() accept", "anchors": ["util/get_delta_t:parse_data"]}
{"id": "C106", "title": "The text of the Delta-T table in solartime.py", "statement": "Read as Python, the lines 138 to 722 of solartime.py bind base year, base month and exactly the table of the model (each value the double nearest to the literal), and nothing else; and except for the first line, a comment, they are what util/get_delta_t writes for some data file.", "quantifier": "all readings of the text", "why_tests_cant": "that no other reading exists, and that a generating input exists, are not observations of a run", "anchors": ["pysolar/solartime.py:delta_t", "util/get_delta_t:parse_data"]}
{"id": "C107", "title": "The sun moves continuously within a month", "statement": "Between two instants of one calendar month (UTC) D days apart, at one place, the hour angle advances by 360 D degrees up to whole turns and 0.19 |D|, the declination changes by at most 0.475 |D| and the unrefracted elevation by at most 360.67 |D| degrees; so nothing jumps except where a month begins (where Delta T steps).", "quantifier": "all pairs of instants of one month in years 1 to 9999, all places", "why_tests_cant": "a Lipschitz bound is about all pairs, however close", "anchors": ["pysolar/solar.py:get_topocentric_position", "pysolar/solar.py:get_topocentric_elevation_angle"]}
{"id": "C108", "title": "Every day the elevation takes every value near the horizon", "statement": "On every UTC day of years 1 to 9999 and at every place up to 65 degrees of latitude, for every v in [-0.7, 0.7] there is a microsecond at which the unrefracted elevation differs from v by at most 4.2e-9 degrees.", "quantifier": "all days, places and values", "why_tests_cant": "an existence statement for every day, place and value", "anchors": ["pysolar/solar.py:get_topocentric_position", "pysolar/solar.py:get_topocentric_elevation_angle"]}
{"id": "C109", "title": "The direct irradiance of the reported altitude can be evaluated", "statement": "get_radiation_direct(when, get_altitude(lat, lon, when)) returns a number whenever get_altitude does, positive and below 1235 for positive altitudes, 0 otherwise.", "quantifier": "all instants and places", "why_tests_cant": "the failing instants last for seconds around sunrise and sunset; that there are some every day is a statement about all days and places", "anchors": ["pysolar/solar.py:get_altitude", "pysolar/radiation.py:get_radiation_direct"]}
{"id": "C110", "title": "What solar_test prints", "statement": "solar_test prints, in order, exactly the half hours of the 24 hours from now at which the altitude is positive, with the altitude, azimuth and irradiance the functions return for that moment, up to the first moment at which a call raises; it ends with that exception, with OverflowError if the calendar ends, and otherwise normally. On every day it can be started so that it prints nothing and raises OverflowError.", "quantifier": "all starting instants", "why_tests_cant": "the starting instant is the current time", "anchors": ["pysolar/solar.py:solar_test"]}
{"id": "C111", "title": "What elevation_test prints", "statement": "elevation_test prints the header and the eleven lines of the standard atmosphere with the integer parts of exact arithmetic; in double precision it prints the same text with every accurate C library.", "quantifier": "all accurate C libraries", "why_tests_cant": "a run sees one C library", "anchors": ["pysolar/elevation.py:elevation_test"]}
{"id": "C112", "title": "The daily overflow happens in double precision", "statement": "With every correctly rounded C library, in IEEE double arithmetic: on every UTC day of years 1 to 9999 and for every pair of doubles lat in [-65, 65], lon in [-360, 360] there is a microsecond at which get_altitude returns a double between -0.011 and 0 and get_radiation_direct of that altitude raises OverflowError; and solar_test started at a suitable microsecond of the day prints nothing and raises OverflowError.", "quantifier": "all correctly rounded C libraries, days and places", "why_tests_cant": "the failing instants last for seconds; existence on all days at all places with all libraries is not testable", "anchors": ["pysolar/solar.py:get_altitude", "pysolar/radiation.py:get_radiation_direct", "pysolar/solar.py:solar_test"]}
{"id": "C113", "title": "The coordinates sent to the Naval Observatory are the coordinates of the datum", "statement": "EncodeRequest sends a sign, whole degrees, whole minutes and seconds that denote the latitude and longitude given: sign * (degrees + minutes / 60 + seconds / 3600) is the coordinate.", "quantifier": "all coordinates", "why_tests_cant": "no test calls it; it is right on whole degrees, the only ones the script draws", "anchors": ["test/query_usno.py:EncodeRequest"]}
{"id": "C114", "title": "A datum that agrees with pysolar has no error", "statement": "ComparePysolarToUSNO reports as alt_error the difference of the altitudes (the datum holds the zenith distance) and as az_error the angle between the azimuths, so both are 0 for a datum that agrees.", "quantifier": "all data", "why_tests_cant": "needs an exactly agreeing datum for every instant and place", "anchors": ["test/query_usno.py:ComparePysolarToUSNO", "test/query_usno.py:EphemerisComparison"]}
{"id": "C115", "title": "A log that was written can be read back", "statement": "ReadEphemeridesLog returns, in order, the data that WriteEphemerisDatumToFile appended: the same wall clock marked as UTC, the same latitude and longitude, and float() of the texts of elevation, azimuth and altitude.", "quantifier": "all sequences of data", "why_tests_cant": "a statement about all texts; the script only writes naive whole seconds", "anchors": ["test/query_usno.py:ReadEphemeridesLog", "test/query_usno.py:WriteEphemerisDatumToFile"]}
{"id": "C116", "title": "simulate_span in double precision", "statement": "Run in IEEE double precision, simulate_span never raises IndexError on a horizon of 361 entries, whatever the other arguments. For finite coordinates a row with the sun up holds the altitude within 2.8e-6 degrees and the azimuth within 2e-6/cos(elevation) degrees of the exact ones, the horizon entry at the rounded azimuth, and an irradiance that is 0 if that entry is below 380 minus round(380 sin altitude) and otherwise within 2.4e-4 W/m2 of the exact one. With the sun down the irradiance is 0.", "quantifier": "all mathematical libraries accurate to an ulp, all places, instants, atmospheres and horizons", "why_tests_cant": "quantifies over all places, times and horizons, and over the rounding of every operation", "anchors": ["pysolar/simulate.py:simulate_span", "pysolar/solar.py:get_altitude", "pysolar/solar.py:get_azimuth", "pysolar/radiation.py:get_radiation_direct"]}
{"id": "C117", "title": "The test suite passes with any accurate mathematical library", "statement": "Run in IEEE double precision, every assertion of test_solar.py and test_hour_angle.py holds: the intermediate results at the NREL example of 2003, position, altitude and azimuth of three places in 2016 to seven digits, the fast angles within 1 and 1.5 degrees of the slow ones over twelve hours, pressure and temperature at 1567.7 m, and the hour angle of Madison to a degree.", "quantifier": "all mathematical libraries accurate to an ulp", "why_tests_cant": "a run of the suite uses one library on one machine; that no accurate library can make an assertion fail (one of them is within 2e-14 of failing) takes a proof", "anchors": ["test/test_solar.py:TestSolar", "test/test_solar.py:TestApi", "test/test_hour_angle.py:Test", "pysolar/solar.py:get_topocentric_position"]}
{"id": "C118", "title": "A higher sun has a higher altitude", "statement": "Under one temperature (180 to 340 K) and pressure (up to 110 kPa), for any two observations: if the unrefracted elevation of the second is higher by x degrees, get_altitude of the second is higher by at least 0.7 x, and by at most x when both are above, or both below, the refraction threshold.  In binary64 the doubles returned are in the same order as the elevations when these are 8.1e-6 degrees apart (within 89 degrees of the horizon and away from the threshold and the singularity).", "quantifier": "all pairs of places, instants and heights", "why_tests_cant": "relates any two calls; a bump in the refraction formula, or a sign in it, reorders only some pairs", "anchors": ["pysolar/solar.py:get_altitude", "pysolar/solar.py:get_refraction_correction"]}
{"id": "C119", "title": "The sun climbs all morning and sinks all afternoon", "statement": "At one place and for two instants of one calendar month D days apart (less than half a day), with cos(latitude) sin(hour angle) at most -c at both (sun east of the meridian), c at least 0.0015: the unrefracted elevation rises by at least (328 c - 0.475) D degrees and get_altitude by 0.7 times that; west of the meridian they fall by as much.  In binary64 the doubles returned rise and fall likewise when that amount is at least 8.1e-6 degrees.", "quantifier": "all places, instants of years 1 to 9999, heights, temperatures and pressures in range", "why_tests_cant": "the tests look at single instants; that nothing in the pipeline makes the altitude dip over a morning is a statement about all pairs of instants", "anchors": ["pysolar/solar.py:get_altitude", "pysolar/solar.py:get_topocentric_position"]}
{"id": "C120", "title": "Day length: longer towards the summer pole, growing until June, constant at the equator", "statement": "get_sunrise_sunset_transit returns for every day up to latitude 65.  Of two places on one meridian whose sun rises and sets, the northern one has, on days 82 to 264 of the year, the earlier sunrise and the later sunset, each by at least 0.028 s per degree of latitude, and before day 78 and after day 268 the later sunrise and the earlier sunset.  At one latitude north of 0.41 degrees the time from sunrise to sunset grows by at least 1.92 s (|sin lat| - 0.007) per day from day 1 to 172 and shrinks as much from day 174 to 356; in the south the reverse; on the equator it stays between 12 h 6 min 39 s and 12 h 7 min 17 s.  In binary64 the orders hold for latitudes at least 0.0002 degrees apart, and for days at latitudes beyond 0.5 degrees.", "quantifier": "all dates, all pairs of latitudes where the sun rises, all time zones, all accurate libraries", "why_tests_cant": "compares pairs of calls over all latitudes and dates; a sign slip in one Fourier coefficient or a swapped sine and cosine still gives plausible times at any one place", "anchors": ["pysolar/util.py:get_sunrise_sunset_transit", "pysolar/util.py:get_sunrise_sunset"]}
{"id": "C121", "title": "The sun is highest at the transit returned", "statement": "Between 1901 and 2099, up to latitude 84: at no instant within twelve hours of the transit returned by get_sunrise_sunset_transit does the sine of the sun's elevation (full algorithm) exceed that at the transit by more than 4.8e-4, or 6e-5 if both instants are in the same calendar month; get_altitude with an elevation of 0 to 80 degrees at the transit exceeds it nowhere by more than 0.17 (0.021) degrees.", "quantifier": "all places up to latitude 84, all dates of 1901 to 2099, all instants within half a day", "why_tests_cant": "relates two independent algorithms at every instant of a day; a sample can only compare some instants", "anchors": ["pysolar/util.py:get_sunrise_sunset_transit", "pysolar/solar.py:get_altitude"]}
{"id": "C122", "title": "The direct beam strengthens all morning and weakens all afternoon", "statement": "At one place, for two instants of one UTC day less than twelve hours apart at which the sun is up, get_radiation_direct applied to the results of get_altitude is strictly greater at the later instant if the sun is east of the meridian at both (cos(latitude) sin(hour angle) at most -0.0015), and strictly smaller if it is west of it.", "quantifier": "all places, instants, heights, temperatures (180 to 340 K) and pressures (up to 110 kPa)", "why_tests_cant": "a statement about all pairs of instants, through the whole chain from clock to irradiance", "anchors": ["pysolar/radiation.py:get_radiation_direct", "pysolar/solar.py:get_altitude"]}
{"id": "C123", "title": "The doubles of sunrise, sunset and transit agree with the doubles of the position", "statement": "In IEEE binary64, 1901 to 2099, on every day on which the sun clearly rises and sets (every day up to latitude 65): get_sunrise_sunset_transit returns; at the sunrise and sunset returned the double of the unrefracted elevation is within 1.341 degrees of -0.833 and the double of the azimuth is in the eastern, respectively western half; at the transit returned the double of the hour angle is within 0.4471 degrees of the meridian, and no elevation computed for an instant within twelve hours exceeds that at the transit by more than 4.81e-4 (6.1e-5 in the same month) in the sine.", "quantifier": "all accurate mathematical libraries, dates of 1901 to 2099, places, heights, time zones without a change of clock in between", "why_tests_cant": "compares two independent algorithms in floating point at every place and date with any library", "anchors": ["pysolar/util.py:get_sunrise_sunset_transit", "pysolar/solar.py:get_topocentric_position", "pysolar/solar.py:get_azimuth"]}
{"id": "C124", "title": "With an aware datetime the only exceptions are arithmetic ones", "statement": "Given a datetime whose time zone supplies an offset, every function taking a time either returns or raises ValueError (not its subclass NoTimeZoneInfoError), ZeroDivisionError or OverflowError. No IndexError, KeyError, TypeError, AttributeError, NameError or NoTimeZoneInfoError can come out, whatever numbers are passed, nan and infinities included, under both back ends.", "quantifier": "all aware datetimes (also those whose UTC instant lies outside the calendar), all double arguments, all C libraries, both back ends, 29 functions", "why_tests_cant": "test_datetime_tzinfo.py calls each function once, at one place and midnight of one day. A table lookup that fails in one month, a missing dictionary key or an internal call with a naive datetime needs every date and every argument.", "anchors": ["pysolar/tzinfo_check.py:60-90", "pysolar/solartime.py:98-136", "pysolar/solartime.py:724-743", "pysolar/solar.py:56-178", "pysolar/util.py:47-692", "test/test_datetime_tzinfo.py:142-325"]}
{"id": "C125", "title": "The irradiance of arrays of places and times is right in double precision", "statement": "For numpy arrays of latitudes, longitudes and times, radiation.get_radiation_direct(time, solar.get_altitude_fast(lat, lon, time)) holds exactly zero at every element whose quick altitude is at most -0.0176 degrees, and by day is within 1.1e-8 W/m2 of the exact value of the published formulas, whatever the other elements are. In particular test_numpy_radiation's assertion rad_results[2] == 0 holds.", "quantifier": "all arrays, all elements with latitude in [-90,90], longitude in [-360,360], any time of the calendar and quick altitude between -89 and 89 degrees outside (-0.0176, 0.0001), all accurate libraries", "why_tests_cant": "test_numpy_radiation checks one element of one array. Zero is the product of an exponential and False, so an exponential that overflows gives nan; that it does not at any other night element needs a bound for all of them.", "anchors": ["pysolar/radiation.py:43-51", "pysolar/solar.py:133-142", "pysolar/numeric.py:61-88", "test/test_numpy.py:97-115"]}
{"id": "C126", "title": "The irradiance and sky functions of util.py are accurate in double precision", "statement": "In binary64, util.extraterrestrial_irrad returns a number within 1.4e-10 W/m2 of its exact value at every place and time (also where rounding decides whether the sun counts as up), and clear_index one within 2.9e-7 wherever that irradiance is at least 1 W/m2. With the sun between 0.00001 and 89 degrees high, solarelevation_function_clear and _overcast are within 6.01e-6 and 2.83e-6, diffuse_underclear and diffuse_underovercast within 1.38e-3, global_irradiance_overcast within 1.61e-3, direct_underclear within 3.83e-3 times its exponential factor, and global_irradiance_clear within 3.85e-3 times that factor plus 1.82e-4; from 1834 to 2105 all but the last are six times closer. diffuse_transmittance is within 2.2e-13 and declination_degree within 1e-13.", "quantifier": "all accurate mathematical libraries, all latitudes, longitudes in [-360,360], elevations within 100 km, times of the calendar, temperatures 180-340 K, pressures 0-110000 Pa, turbidity in [-10,10] (in [-5,5], like the air mass, for direct_underclear), solar constant in [0,2000]", "why_tests_cant": "No test of the repository calls these functions with a value to compare. Cancellation, a branch taken differently after rounding or an exponential of a rounded argument can spoil a result at some places and times only.", "anchors": ["pysolar/util.py:190-257", "pysolar/util.py:260-630", "pysolar/util.py:659-692"]}
{"id": "C127", "title": "REST2 component functions are accurate in double precision", "statement": "In binary64, for a double m in [0,40] (relative air mass): the Rayleigh transmittances are within 4.1e-11 (high band) and 7e-16 (low) of the published formulas, the gas ones within 1.9e-12 and 5.7e-14, the nitrogen one within 6.4e-14, the ozone one (path 0-0.5 atm-cm) within 3.2e-11, the water vapour ones (0-6 cm) within 1.1e-12 and 8.1e-7, the forward scattering fraction within 6e-16 and the high-band scattering correction factor (optical depth 0-1) within 9.8e-10; the aerosol transmittances (optical depth 0-1) are within 2.1e-14 of Beer's law; the sky albedos (alpha 0-2.5, beta 0-1) are within 5.3e-15 and 1.9e-15. The aerosol optical depth (beta 0-1, wavelength 0.2-2, alpha 0-2.5) is within 2e-14 of Angstrom's law beta*w^-alpha, the forward scatterance (altitude 0-90 degrees) within 2e-15 of 1-exp(-0.6931-1.8326 sin alt), and the low-band scattering correction factor (m > 0, optical depth 0-1) within 7.9e-9. None of them raises.", "quantifier": "all accurate mathematical libraries, all doubles in the ranges named", "why_tests_cant": "No test covers rest.py. The denominators are differences of near-equal terms for some arguments only; sampling cannot show that none of them is near zero in between.", "anchors": ["pysolar/rest.py:37-44", "pysolar/rest.py:46-73", "pysolar/rest.py:177-181", "pysolar/rest.py:201-210", "pysolar/rest.py:238-261", "pysolar/rest.py:264-303"]}
