import json
P=[]
def p(title, statement, quantifier, why, anchors):
    P.append(dict(id="C%02d"%(len(P)+1), title=title, statement=statement, quantifier=quantifier, why_tests_cant=why, anchors=anchors))

p("Timezone invariance of every instant-based result",
  "Two timezone-aware datetimes that denote the same instant (whatever their tzinfo, DST state or local calendar date) give identical results - same value, same warning or same exception - from get_leap_seconds, get_delta_t, get_julian_solar_day, get_julian_ephemeris_day, get_topocentric_position, get_position, get_altitude, get_azimuth, get_altitude_fast, get_azimuth_fast, get_solar_time, get_hour_angle, get_radiation_direct, extraterrestrial_irrad, declination_degree, mean_earth_sun_distance and the clear-sky functions built on them.",
  "all pairs of aware datetimes with equal UTC instant, all latitudes, longitudes, elevations, temperatures and pressures, any float arithmetic",
  "infinitely many timezone/offset/instant combinations; a test picks a few zones",
  ["pysolar/solar.py:get_position","pysolar/solar.py:get_altitude","pysolar/solartime.py:get_julian_solar_day","pysolar/numeric.py:tm_yday_math"])
p("get_position is exactly get_azimuth paired with get_altitude",
  "get_position(lat, lon, when, elevation, temperature, pressure) returns (get_azimuth(lat, lon, when, elevation), get_altitude(lat, lon, when, elevation, temperature, pressure)), bit for bit, and raises exactly when one of the two raises.",
  "all argument values, all datetimes, any float arithmetic and any libm",
  "equality must hold for every input and rounding behaviour, not for the three sampled locations",
  ["pysolar/solar.py:get_position","pysolar/solar.py:get_altitude","pysolar/solar.py:get_azimuth"])
p("Leap-second count matches the official TAI-UTC history",
  "For every aware datetime from 1972-01-01 UTC on, get_leap_seconds returns the official TAI-UTC value: 10 plus the number of IERS leap seconds that have taken effect by that UTC instant; before 1972 it returns 10; after the table it stays at 37.",
  "every aware datetime in years 1..9999, every timezone",
  "a test checks some dates; every half-year boundary of 54 years and every timezone must be right",
  ["pysolar/solartime.py:get_leap_seconds","pysolar/solartime.py:leap_seconds_adjustments"])
p("Leap-second staleness warning is issued exactly past the table",
  "get_leap_seconds issues its 'not available' warning exactly for UTC instants from 2026-07-01 on, never earlier, and the returned value does not depend on whether the warning was issued.",
  "every aware datetime",
  "the boundary lies on a half-year in the future of the test run",
  ["pysolar/solartime.py:get_leap_seconds"])
p("Delta-T lookup is total and is the table entry of the UTC month",
  "get_delta_t never raises IndexError for any aware datetime: inside 1973-02..2014-04 it returns the entry of that UTC year and month, before 1973-02 the first entry, and after 2014-04 an entry of the last year of the table.",
  "every aware datetime in years 1..9999",
  "index arithmetic with three clamps has to be right for each of 120k months",
  ["pysolar/solartime.py:get_delta_t","pysolar/solartime.py:delta_t"])
p("Delta-T stays at the last known value after the table ends",
  "For every instant after the table ends (2014-04) get_delta_t returns the last tabulated value.",
  "every aware datetime after April 2014",
  "tests evaluate get_delta_t only inside the table",
  ["pysolar/solartime.py:get_delta_t"])
p("Tables are mutually consistent: implied UT1-UTC stays within 0.9 s",
  "For every instant covered by both tables the UT1-UTC implied by the library (leap seconds + 32.184 - Delta-T) is below 0.9 s in absolute value, as the IERS definition of UTC guarantees; delta-T entries lie between 43 and 68 s.",
  "every instant from 1973-02 to 2014-04",
  "495 table entries combined with 27 leap seconds at every instant of every month",
  ["pysolar/solartime.py:get_delta_t","pysolar/solartime.py:get_leap_seconds"])
p("Julian ephemeris day is the calendar Julian date in TT",
  "get_julian_ephemeris_day(when) equals the Julian date of the UTC calendar date and time (Meeus' Gregorian formula) plus (TAI-UTC + 32.184)/86400 days.",
  "every aware datetime in years 1..9999",
  "all 3.6 million calendar days and every microsecond",
  ["pysolar/solartime.py:get_julian_ephemeris_day"])
p("Julian ephemeris day is strictly increasing in time",
  "A later instant always has a strictly larger Julian ephemeris day, and the difference is at least the elapsed time.",
  "all pairs of aware datetimes",
  "pairs of instants around every leap-second boundary",
  ["pysolar/solartime.py:get_julian_ephemeris_day"])
p("Julian solar day (UT1) is increasing in time",
  "A later instant always has a larger UT Julian day.",
  "all pairs of aware datetimes",
  "violations hide in single microseconds at month boundaries",
  ["pysolar/solartime.py:get_julian_solar_day"])
p("Naive datetimes are rejected by every entry point taking a time",
  "Every library function taking a `when` argument raises NoTimeZoneInfoError for a datetime without tzinfo, whatever the other arguments, and never returns a number for it.",
  "all public functions with a `when` argument, all naive datetimes, all other arguments",
  "tests check one naive datetime for some of the functions",
  ["pysolar/tzinfo_check.py:check_aware_dt","pysolar/solar.py","pysolar/util.py","pysolar/radiation.py:get_radiation_direct"])
p("The timezone-check decorator is transparent and sound",
  "For any wrapped function, any signature and any positional/keyword call: if every checked argument is array-like or has a non-None tzinfo the wrapper returns exactly what the function returns; if some checked argument is a scalar without tzinfo the wrapped function is never called and the error names the first offending argument.",
  "all functions, signatures, argument lists and keyword dictionaries",
  "ranges over arbitrary functions and call shapes",
  ["pysolar/tzinfo_check.py:check_aware_dt"])
p("Elevation angle and azimuth are the true horizontal coordinates of the sun vector",
  "For any latitude, topocentric declination and hour angle, the unit vector with azimuth get_topocentric_azimuth_angle (clockwise from north) and elevation get_topocentric_elevation_angle equals the sun's direction vector rotated into the observer's east-north-up frame.",
  "all latitudes in [-90,90], all declinations in (-90,90), all hour angles",
  "quadrant errors of atan2/asin hide in parts of the sphere not sampled",
  ["pysolar/solar.py:get_topocentric_azimuth_angle","pysolar/solar.py:get_topocentric_elevation_angle"])
p("Azimuth is always in [0, 360)",
  "get_azimuth, get_position and get_topocentric_azimuth_angle return an azimuth a with 0 <= a < 360.",
  "all inputs",
  "wrap-around values have measure zero",
  ["pysolar/solar.py:get_topocentric_azimuth_angle","pysolar/solar.py:get_azimuth"])
p("Altitude is a physical elevation",
  "get_altitude equals the geometric elevation in [-90, 90] plus a refraction correction; with standard temperature and pressure the result lies in [-90, 90] and differs from the geometric elevation by less than 0.9 degrees; below -0.83337 degrees no refraction is added.",
  "all locations and times for which it returns",
  "continuum of sun positions",
  ["pysolar/solar.py:get_altitude","pysolar/solar.py:get_refraction_correction"])
p("Refraction only ever raises the apparent sun, scales with pressure and inversely with temperature",
  "For positive pressure and temperature get_refraction_correction is never negative; it is exactly proportional to pressure and inversely proportional to temperature, zero below the -0.83337 degree threshold.",
  "all elevations in [-90,90], all positive pressures and temperatures",
  "sign changes happen within 0.11 degree of the zenith",
  ["pysolar/solar.py:get_refraction_correction"])
p("Refraction never raises",
  "get_refraction_correction returns a number for every elevation in [-90,90] and positive temperature.",
  "all elevations in [-90,90]",
  "the failing elevation is a single point",
  ["pysolar/solar.py:get_refraction_correction"])
p("Longitude is only significant modulo 360 degrees",
  "Adding 360 degrees (any whole number of turns) to the longitude does not change get_topocentric_position, get_position, get_altitude or get_azimuth.",
  "all locations, times, whole turns",
  "infinite family of longitudes",
  ["pysolar/solar.py:get_local_hour_angle"])
p("Geocentric right ascension and declination are the ecliptic-to-equatorial rotation",
  "For any apparent longitude, obliquity and latitude the returned right ascension (in [0,360)) and declination (in [-90,90]) are the equatorial coordinates of the ecliptic direction rotated by the obliquity.",
  "all longitudes, latitudes in (-90,90), obliquities",
  "all quadrants and poles",
  ["pysolar/solar.py:get_geocentric_sun_right_ascension","pysolar/solar.py:get_geocentric_sun_declination"])
p("Observer's projected distances lie on the reference ellipsoid",
  "At elevation 0 the projected radial and axial distances satisfy x^2 + (y/0.99664719)^2 = 1, the reduced latitude satisfies tan u = 0.99664719 tan(lat), and elevation moves the point along the geodetic vertical by elevation/6378140.",
  "all latitudes in [-90,90], all elevations",
  "continuum of latitudes including the poles",
  ["pysolar/solar.py:get_projected_radial_distance","pysolar/solar.py:get_projected_axial_distance","pysolar/solar.py:get_flattened_latitude"])
p("Sun-earth distance is physical for every representable date",
  "get_sun_earth_distance is within [0.96, 1.04] AU for every date from year 1 to 9999 and within [0.98, 1.02] for years 1000..3000; in particular no division by it can fail.",
  "all Julian millennia of years 1..9999",
  "a sum of 59 incommensurate cosines at every instant",
  ["pysolar/solar.py:get_sun_earth_distance","pysolar/solar.py:get_coeff","pysolar/constants.py:sun_earth_distance_coeffs"])
p("Position functions never fail on physical inputs",
  "For every aware datetime in years 1..9999 (in UTC), every finite latitude in [-90,90], longitude, and elevation up to 1e9 m, get_topocentric_position and get_azimuth return finite numbers; get_altitude/get_position do so too with positive temperature whenever the geometric elevation is outside (-5.2,-5.0).",
  "all physical inputs",
  "domain errors of asin, divisions and tangents depend on rounding and on single points",
  ["pysolar/solar.py:get_topocentric_position","pysolar/solar.py:get_altitude"])
p("Periodic-term evaluator computes the VSOP polynomial",
  "get_coeff(x, table) equals sum over n of x^n * sum over rows of A*cos(B + C*x), for every table and every x.",
  "all coefficient tables of any shape and all x",
  "any table size",
  ["pysolar/solar.py:get_coeff"])
p("Nutation is the tabulated trigonometric series and is bounded",
  "get_nutation pairs each of the 63 argument rows with its coefficient row, equals the published series, and stays below 0.0056 degrees in longitude and 0.0028 degrees in obliquity for years 1000..3000.",
  "all Julian centuries",
  "63-term sum at every instant",
  ["pysolar/solar.py:get_nutation","pysolar/constants.py:nutation_coefficients"])
p("Mean sidereal time is reduced to [0,360) and advances by one turn per sidereal day",
  "get_mean_sidereal_time is in [0,360), congruent modulo 360 to the IAU expression within 0.02 degrees for all years 1..9999.",
  "all Julian days of years 1..9999",
  "all instants",
  ["pysolar/solar.py:get_mean_sidereal_time"])
p("Apparent sidereal time uses the obliquity as an angle in degrees",
  "get_apparent_sidereal_time equals mean sidereal time plus nutation in longitude times the cosine of the true obliquity angle.",
  "all Julian days and nutations",
  "the error is below the tolerance of the existing test",
  ["pysolar/solar.py:get_apparent_sidereal_time"])
p("Solar parallax decreases with distance",
  "get_equatorial_horizontal_parallax(R) = 8.794/(3600 R) degrees; a larger sun-earth distance gives a smaller parallax.",
  "all positive distances",
  "at R close to 1 the wrong and right formula agree to test tolerance",
  ["pysolar/solar.py:get_equatorial_horizontal_parallax"])
p("Topocentric declination uses the radial distance in its denominator",
  "get_topocentric_sun_declination computes atan2((sin d - y sin p) cos da, cos d - x sin p cos H) with x the radial and y the axial projected distance, i.e. the parallax-shifted direction.",
  "all inputs",
  "the effect is below test tolerance",
  ["pysolar/solar.py:get_topocentric_sun_declination","pysolar/solar.py:get_topocentric_position"])
p("Incidence angle is the angle between the surface normal and the sun",
  "get_incidence_angle is in [0,180], never raises, and its cosine is the dot product of the unit surface normal (slope, orientation from south) and the unit sun vector (zenith, azimuth from north); a horizontal surface gives back the zenith angle.",
  "all zenith angles, slopes, orientations, azimuths",
  "continuum of four angles",
  ["pysolar/solar.py:get_incidence_angle"])
p("Zenith angle complements altitude",
  "get_topocentric_zenith_angle equals 90 minus the altitude (refraction included) for the same topocentric position, pressure and temperature.",
  "all inputs",
  "all inputs",
  ["pysolar/solar.py:get_topocentric_zenith_angle","pysolar/solar.py:get_altitude"])
p("Fast altitude and azimuth are the horizontal coordinates of the approximate sun",
  "get_altitude_fast in [-90,90] and get_azimuth_fast in [0,360) are the elevation and azimuth of the direction with declination get_declination and hour angle get_hour_angle; they never raise except at the zenith/nadir.",
  "all latitudes in (-90,90), longitudes and aware datetimes",
  "quadrant selection must be right on the whole sphere",
  ["pysolar/solar.py:get_altitude_fast","pysolar/solar.py:get_azimuth_fast"])
p("Declination and equation of time stay in their documented ranges",
  "get_declination(day) is within +-23.45 degrees with zeros at day 81 plus half years; equation_of_time is within +-18.9 minutes; get_solar_time advances 4 minutes per degree of longitude; get_hour_angle is 15 degrees per hour from solar noon.",
  "all days (also fractional), longitudes and datetimes",
  "all inputs",
  ["pysolar/solar.py:get_declination","pysolar/solar.py:equation_of_time","pysolar/solar.py:get_solar_time","pysolar/solar.py:get_hour_angle"])
p("Direct radiation is zero whenever the sun is not above the horizon",
  "get_radiation_direct(when, altitude) returns 0 for every altitude <= 0, and never raises.",
  "all altitudes in [-90,0], all datetimes",
  "failing altitudes form a 0.017-degree band below the horizon",
  ["pysolar/radiation.py:get_radiation_direct","pysolar/radiation.py:get_air_mass_ratio"])
p("Direct radiation by day is positive, below the extraterrestrial flux and increasing with altitude",
  "For altitude in (0,90] the direct radiation lies in [0,1235) W/m^2, below the apparent extraterrestrial flux of that day, and is larger for a higher sun on the same day.",
  "all altitudes in (0,90], all datetimes",
  "monotonicity over a continuum",
  ["pysolar/radiation.py:get_radiation_direct"])
p("Sunrise <= transit <= sunset, symmetric about transit",
  "Whenever get_sunrise_sunset_transit returns, sunrise <= transit <= sunset, transit is the midpoint of sunrise and sunset to the microsecond, all three carry the caller's tzinfo, and the wrappers return exactly the matching components.",
  "all locations and aware datetimes",
  "all inputs",
  ["pysolar/util.py:get_sunrise_sunset_transit"])
p("At sunrise and sunset the sun's centre is 0.833 degrees below the horizon",
  "At the computed hour angle the elevation of the sun with the function's own declination is exactly 90 - 90.833 degrees; the hour angle is the unique solution in [0,12] hours.",
  "all latitudes and days on which the function returns",
  "continuum of latitudes and every day",
  ["pysolar/util.py:get_sunrise_sunset_transit"])
p("Polar day and night are reported as ValueError, never as a time",
  "get_sunrise_sunset_transit raises exactly when no solution of the sunrise equation exists (|cos| > 1), and returns otherwise (away from the poles and the calendar limits), in both numeric modes.",
  "all latitudes and days",
  "boundary between polar day and ordinary day",
  ["pysolar/util.py:get_sunrise_sunset_transit"])
p("Sunrise instants do not depend on the timezone for the same local date",
  "Two aware datetimes with the same local calendar date give the same absolute sunrise, transit and sunset instants, whatever their fixed UTC offsets: exactly when the offsets differ by an even number of microseconds (so for all offsets in whole seconds), and within one microsecond otherwise.",
  "all pairs of fixed-offset timezones",
  "all offsets",
  ["pysolar/util.py:get_sunrise_sunset_transit"])
p("Transit falls on the requested local day",
  "If the UTC offset is within 11 hours of local mean time (offset - longitude/15), the transit time returned is on the caller's local calendar date.",
  "all locations, offsets and dates",
  "all inputs",
  ["pysolar/util.py:get_sunrise_sunset_transit"])
p("datetime_range is evenly spaced, starts at start and stays before end",
  "datetime_range(start, end, step) yields start + n*step for n = 0..k-1 with k the number of whole steps in the span; every element is in [start, end), consecutive elements differ by the step, and it is empty if end <= start.",
  "all datetimes and positive integer steps",
  "any length",
  ["pysolar/simulate.py:datetime_range"])
p("datetime_range accepts fractional steps and covers the whole span",
  "datetime_range accepts a float step_minutes as its stub declares, and yields every start + n*step that is before end.",
  "all spans and steps",
  "tests never call it",
  ["pysolar/simulate.py:datetime_range","pysolar/simulate.pyi"])
p("simulate_span samples exactly the position functions at the datetime_range instants",
  "simulate_span yields, in order, one tuple per instant of datetime_range with get_altitude, get_azimuth and the horizon entry at the rounded azimuth, with radiation 0 when shaded and get_radiation_direct otherwise; any 361-entry horizon is indexed in bounds.",
  "all spans, horizons with at least 361 entries, locations",
  "any length; index 360 reached only for azimuths above 359.5",
  ["pysolar/simulate.py:simulate_span"])
p("A 360-entry horizon is enough for simulate_span",
  "simulate_span never raises IndexError for a horizon list with one entry per degree (360 entries).",
  "all sun positions",
  "needs an azimuth above 359.5",
  ["pysolar/simulate.py:simulate_span"])
p("Pressure falls with elevation along the barometric law",
  "get_pressure_with_elevation(h) is Ps at h = Hb, positive and strictly decreasing for default parameters up to 44330.7 m, satisfies the hydrostatic scaling P(h) = Ps*(T(h)/Ts)^(gM/(-R Tl)) with T from get_temperature_with_elevation, and warns exactly above 11000 m.",
  "all elevations",
  "monotonicity over a continuum",
  ["pysolar/elevation.py:get_pressure_with_elevation","pysolar/elevation.py:get_temperature_with_elevation"])
p("Extraterrestrial irradiance is non-negative, bounded and consistent with the fast altitude",
  "extraterrestrial_irrad is 0 when the fast altitude is <= 0, positive when it is > 0, never above 1.0364*SC, and linear in SC.",
  "all locations and datetimes, SC >= 0",
  "all inputs",
  ["pysolar/util.py:extraterrestrial_irrad","pysolar/solar.py:get_altitude_fast"])
p("Clear-sky functions honour temperature and pressure",
  "global_irradiance_clear depends on the temperature, pressure and turbidity passed to it.",
  "all inputs",
  "tests only check for the absence of NoTimeZoneInfoError",
  ["pysolar/util.py:global_irradiance_clear"])
p("Mean earth-sun distance varies over the year",
  "mean_earth_sun_distance(when) follows the annual variation of the earth-sun distance.",
  "all datetimes",
  "no test of the value",
  ["pysolar/util.py:mean_earth_sun_distance"])
p("Switching numeric back ends is history independent",
  "After any sequence of use_numpy/use_math calls, every math name used by the library is bound to the back end selected last.",
  "all call histories",
  "unbounded histories",
  ["pysolar/numeric.py:use_math","pysolar/numeric.py:use_numpy"])
p("Both back ends' date decompositions agree",
  "tm_yday, tm_hour and tm_min give the same integers in math mode and numpy mode for every UTC datetime, with 1 <= yday <= 366, 0 <= hour < 24, 0 <= min < 60.",
  "all datetimes",
  "all days including leap years and centuries",
  ["pysolar/numeric.py:tm_yday_math","pysolar/numeric.py:tm_yday_numpy"])
p("Nutation cache does not affect results",
  "get_aberration_coeffs returns the same coefficient functions on every call of every history, so results never depend on earlier calls.",
  "all call histories",
  "unbounded histories",
  ["pysolar/constants.py:get_aberration_coeffs"])
p("Broadband REST2 irradiance functions return a value",
  "rest.get_broadband_direct_normal_irradiance, get_beam_broadband_irradiance, get_global_broadband_irradiance, get_diffuse_broadband_irradiance and get_backscattered_diffuse_broadband_irradiance return a number for physical inputs.",
  "all inputs",
  "universal failure has to be shown for every input",
  ["pysolar/rest.py"])
p("REST2 transmittances are physical",
  "Rayleigh, gas, ozone, nitrogen, water-vapour and aerosol transmittances lie in (0,1] and equal 1 at zero optical mass, for non-negative optical masses in the model's range.",
  "all optical masses and amounts in range, both bands",
  "rational functions over a continuum",
  ["pysolar/rest.py:get_rayleigh_transmittance","pysolar/rest.py:get_gas_transmittance","pysolar/rest.py:get_aerosol_transmittance"])
p("REST2 optical masses are 1 at the zenith",
  "The Rayleigh, ozone, water and aerosol optical masses at altitude 90 degrees are 1 (within 1 percent) at standard pressure.",
  "altitude 90",
  "no test",
  ["pysolar/rest.py:get_optical_mass_rayleigh"])
p("Vectorised evaluation is elementwise",
  "With numpy arrays of locations the fast functions, refraction and radiation return the array of the scalar results.",
  "all array shapes and contents",
  "any array length",
  ["pysolar/solar.py:get_altitude_fast","pysolar/solar.py:get_azimuth_fast","pysolar/radiation.py:get_radiation_direct"])
p("Topocentric position is the composition of the documented steps",
  "get_topocentric_position returns the topocentric declination and hour angle of the VSOP87 sun: heliocentric series reversed, nutation and aberration added to the longitude, rotated by the true obliquity, local hour angle from sidereal time and longitude, shifted by the parallax of the observer's point on the ellipsoid - with the three deviations C26, C27 and C28 as they are in the code.",
  "all latitudes, longitudes, elevations to 1e11 m, aware datetimes in years 1..9999",
  "a test compares a few positions to a table; wiring errors below its tolerance or outside its dates pass",
  ["pysolar/solar.py:get_topocentric_position"])
p("The position returned is within 0.1 degrees of the published algorithm",
  "The direction given by get_topocentric_position differs by at most 0.1 degrees of arc from the direction of the published NREL SPA / Meeus algorithm (correct sidereal time, parallax and topocentric declination) for the same Julian days.",
  "all latitudes, longitudes, elevations to 100 km, aware datetimes in years 1..9999",
  "the tests compare about ten instants with reference values",
  ["pysolar/solar.py:get_topocentric_position","pysolar/solar.py:get_apparent_sidereal_time","pysolar/solar.py:get_equatorial_horizontal_parallax","pysolar/solar.py:get_topocentric_sun_declination"])
p("Both back ends return the same numbers",
  "Wherever the math back end returns a number for scalars, the numpy back end returns the same number (in real arithmetic), whichever of the arguments are numpy.float64: get_topocentric_position, get_position, get_altitude, get_azimuth, the fast functions, get_radiation_direct, extraterrestrial_irrad, clear_index and get_sunrise_sunset_transit. For the functions reading the clock the UTC offset must be a whole number of minutes (C49).",
  "all arguments, all aware datetimes",
  "the tests run each back end on a handful of points",
  ["pysolar/numeric.py","pysolar/solar.py","pysolar/util.py"])
p("declination_degree is the yearly declination",
  "declination_degree(when, TY) is 23.45 sin(2 pi (n-81)/TY) degrees for the UTC day number n of when, so it lies in [-23.45, 23.45]; it equals get_declination(n) for TY = 365, and TY = 0 raises ZeroDivisionError.",
  "all aware datetimes, all TY",
  "tests check only that aware datetimes are accepted",
  ["pysolar/util.py:declination_degree","pysolar/solar.py:get_declination"])
p("Under overcast skies global and diffuse irradiance are equal",
  "As the docstrings say, global_irradiance_overcast(...) equals diffuse_underovercast(...) for the same arguments.",
  "all places, aware datetimes, turbidities",
  "no test compares the two",
  ["pysolar/util.py:global_irradiance_overcast","pysolar/util.py:diffuse_underovercast","pysolar/util.py:diffuse_underclear"])
p("The solar elevation functions are polynomials in the sine of the altitude",
  "solarelevation_function_clear is 0.038175 + 1.5458 s - 0.59980 s^2 and solarelevation_function_overcast is -0.0067133 + 0.78600 s + 0.22401 s^2 with s the sine of the solar altitude.",
  "all places and aware datetimes",
  "no test of the value",
  ["pysolar/util.py:solarelevation_function_clear","pysolar/util.py:solarelevation_function_overcast"])
p("Direct clear-sky irradiance is between 0 and the solar constant",
  "With the sun above the horizon direct_underclear returns a value in [0, 1367] W/m^2 for the default arguments.",
  "all places and aware datetimes with the sun up",
  "no test of the value",
  ["pysolar/util.py:direct_underclear","pysolar/util.py:global_irradiance_clear"])
p("Clearness index and diffuse ratio are the documented quotients",
  "clear_index(ghi, lat, lon, when) is ghi divided by the extraterrestrial irradiance on a horizontal plane when the sun is up and raises ZeroDivisionError when it is not; diffuse_ratio(d, g) is d/g and raises ZeroDivisionError exactly when g = 0.",
  "all irradiances, places and aware datetimes",
  "tests check only that aware datetimes are accepted",
  ["pysolar/util.py:clear_index","pysolar/util.py:diffuse_ratio"])
p("REST2 scattering functions obey their physical laws",
  "Sky albedos lie in (0,1); the backscattered irradiance x satisfies x = rho_ground rho_sky (direct + diffuse + x); the aerosol optical depth obeys Angstrom's law; forward-scattered fractions lie in (0,1) and the aerosol one grows with the altitude; scattering correction factors are positive.",
  "all arguments in the model's range, both bands",
  "no tests exist for rest.py",
  ["pysolar/rest.py:get_sky_albedo","pysolar/rest.py:get_backscattered_diffuse_irradiance_by_band","pysolar/rest.py:get_aerosol_optical_depth","pysolar/rest.py:get_aerosol_forward_scatterance_factor"])
p("REST2 component functions return the published parametrisation",
  "The Rayleigh, gas, ozone and water-vapour transmittances, the scattering correction factors, the sky albedos and the forward scattering fractions are the published rational functions in both bands.",
  "all arguments in the model's range, both bands",
  "no tests exist for rest.py",
  ["pysolar/rest.py"])
p("The nitrogen transmittance depends on the amount passed",
  "get_nitrogen_transmittance(band, mass, amount) is the published transmittance for that amount of NO2, in particular 1 for none.",
  "all masses and amounts",
  "no tests exist for rest.py",
  ["pysolar/rest.py:get_nitrogen_transmittance"])
p("The stub files describe the functions",
  "For every function in the .pyi files, a call binds its arguments to parameters in the same way under the stub's signature and under the implementation's.",
  "all functions with a stub, all lists of positional and keyword arguments",
  "stubs are not executed by any test",
  ["pysolar/util.pyi","pysolar/solar.pyi","pysolar/radiation.pyi"])
p("The Delta-T table generator and lookup round-trip",
  "For consecutive monthly entries util/get_delta_t prints a table in which get_delta_t's lookup finds every entry under its own year and month; input with a gap, a wrong day or the wrong order stops at an assertion; the table in solartime.py has the printed form.",
  "all lists of entries with months 1..12",
  "the script has no tests",
  ["util/get_delta_t","pysolar/solartime.py:get_delta_t"])
p("Every function taking when checks it in every call form",
  "However `when` is passed (position or keyword, with defaults or extra arguments), a datetime with a time zone (or a numpy datetime) reaches the function, a naive datetime raises NoTimeZoneInfoError and any other value raises ValueError, except in get_azimuth_fast and get_radiation_direct, which are not decorated.",
  "all decorated functions, all argument lists that pass `when`",
  "tests use one call form per function",
  ["pysolar/tzinfo_check.py","pysolar/util.py","pysolar/solar.py","pysolar/radiation.py"])
p("The azimuth in double precision is in [0,360)",
  "With the math back end in IEEE double arithmetic, get_azimuth, get_position and get_topocentric_azimuth_angle return, when they return, NaN or a float in [0, 360): rounding never produces 360.",
  "all float inputs, all C libraries whose atan2 stays within [-M_PI, M_PI]",
  "the rounding cases next to 360 are isolated floats",
  ["pysolar/solar.py:get_topocentric_azimuth_angle","pysolar/solar.py:get_azimuth","pysolar/solar.py:get_position"])
p("Angles reduced modulo 360 are below 360 in double precision",
  "In IEEE double arithmetic the geocentric and heliocentric longitudes, right ascension, hour angle and sidereal time, all reduced with % 360, lie in [0, 360).",
  "all float inputs, any C library",
  "the failing inputs are tiny negative angles",
  ["pysolar/solar.py:get_local_hour_angle","pysolar/solar.py:get_geocentric_longitude","pysolar/solar.py:get_heliocentric_longitude","pysolar/solar.py:get_mean_sidereal_time"])
p("The elevation angle is defined for every sun direction in double precision",
  "In IEEE double arithmetic get_topocentric_elevation_angle returns an angle in [-90, 90] for all finite latitudes, declinations and hour angles.",
  "all finite inputs, all correctly rounded C libraries",
  "raises only where rounding pushes a sine above 1",
  ["pysolar/solar.py:get_topocentric_elevation_angle","pysolar/solar.py:get_altitude"])
p("The incidence angle is defined for every orientation in double precision",
  "In IEEE double arithmetic get_incidence_angle returns an angle in [0, 180] for all finite zenith angles, slopes and orientations.",
  "all finite inputs, all correctly rounded C libraries",
  "raises only where rounding pushes a cosine above 1",
  ["pysolar/solar.py:get_incidence_angle"])
p("The fast azimuth is defined at every place and time in double precision",
  "In IEEE double arithmetic get_azimuth_fast returns an angle in [0, 360] at every place and time.",
  "all finite places, all aware datetimes, all correctly rounded C libraries",
  "fails when the declination is 0 on the equator, for some minutes of one day",
  ["pysolar/solar.py:get_azimuth_fast"])
p("Julian days are accurate to 0.15 ms in double precision",
  "In IEEE double arithmetic get_julian_solar_day and get_julian_ephemeris_day return for every aware datetime, within 1.7e-9 day of the exact value (3.1e-10 day from 1834 to 2105).",
  "all aware datetimes whose UTC instant is in the years 1 to 9999",
  "tests compare a few dates with 2 to 6 decimals",
  ["pysolar/solartime.py:get_julian_solar_day","pysolar/solartime.py:get_julian_ephemeris_day"])
p("The Julian ephemeris day increases with time in double precision",
  "In IEEE double arithmetic a later instant has a larger Julian ephemeris day.",
  "all pairs of aware datetimes",
  "needs instants closer than the rounding of a Julian day",
  ["pysolar/solartime.py:get_julian_ephemeris_day"])
with open('/verif/properties.jsonl','w') as f:
    for q in P: f.write(json.dumps(q)+"\n")
print(len(P))
