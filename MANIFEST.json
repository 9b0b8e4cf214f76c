{
 "claims": [
  {
   "property": "C01",
   "status": "proved",
   "theorems": [
    "C01_timezone_invariance",
    "C01_timezone_invariance_numpy"
   ],
   "note": ""
  },
  {
   "property": "C02",
   "status": "proved",
   "theorems": [
    "C02_position_is_azimuth_and_altitude"
   ],
   "note": ""
  },
  {
   "property": "C03",
   "status": "proved",
   "theorems": [
    "C03_leap_seconds_official"
   ],
   "note": ""
  },
  {
   "property": "C04",
   "status": "proved",
   "theorems": [
    "C04_leap_warning_exact"
   ],
   "note": ""
  },
  {
   "property": "C05",
   "status": "proved",
   "theorems": [
    "C05_delta_t_total"
   ],
   "note": ""
  },
  {
   "property": "C06",
   "status": "partial",
   "theorems": [
    "C06_delta_t_after_table_refuted",
    "C06_delta_t_after_table_partial"
   ],
   "note": "REFUTED: false of the code; after the table get_delta_t returns the last year's entry for that calendar month, so it jumps back. Proved: exactly which entry is returned."
  },
  {
   "property": "C07",
   "status": "proved",
   "theorems": [
    "C07_tables_consistent"
   ],
   "note": ""
  },
  {
   "property": "C08",
   "status": "proved",
   "theorems": [
    "C08_julian_ephemeris_day"
   ],
   "note": ""
  },
  {
   "property": "C09",
   "status": "proved",
   "theorems": [
    "C09_julian_ephemeris_day_increasing"
   ],
   "note": ""
  },
  {
   "property": "C10",
   "status": "partial",
   "theorems": [
    "C10_julian_day_increasing_refuted",
    "C10_julian_day_increasing_partial"
   ],
   "note": "REFUTED: false of the code; the Julian solar day decreases across some month boundaries because the Delta-T table steps. Proved: increasing within a UTC month, and for instants at least 0.11 s apart."
  },
  {
   "property": "C11",
   "status": "partial",
   "theorems": [
    "C11_naive_radiation_refuted",
    "C11_naive_rejected_partial",
    "C11_naive_rejected_clock_partial",
    "C11_naive_azimuth_fast_partial",
    "C11_naive_simulate_partial"
   ],
   "note": "REFUTED: false of the code; get_radiation_direct is undecorated and returns a number for a naive datetime. Proved: every other entry point raises NoTimeZoneInfoError."
  },
  {
   "property": "C12",
   "status": "proved",
   "theorems": [
    "C12_decorator"
   ],
   "note": ""
  },
  {
   "property": "C13",
   "status": "proved",
   "theorems": [
    "C13_horizontal_coordinates"
   ],
   "note": ""
  },
  {
   "property": "C14",
   "status": "proved",
   "theorems": [
    "C14_azimuth_range"
   ],
   "note": ""
  },
  {
   "property": "C15",
   "status": "proved",
   "theorems": [
    "C15_altitude_physical"
   ],
   "note": ""
  },
  {
   "property": "C16",
   "status": "partial",
   "theorems": [
    "C16_refraction_negative_refuted",
    "C16_claim_refuted",
    "C16_refraction_partial",
    "C16_refraction_formula"
   ],
   "note": "REFUTED: false of the code; the correction is negative near the zenith (also at 90 degrees). Proved: non-negative up to 89.89 degrees, proportional to pressure, inversely to temperature, 0 below the threshold, the published formula above it."
  },
  {
   "property": "C17",
   "status": "partial",
   "theorems": [
    "C17_refraction_total_refuted",
    "C17_claim_refuted",
    "C17_altitude_raises_refuted",
    "C17_refraction_raises_partial"
   ],
   "note": "REFUTED: false of the code; ZeroDivisionError at -5.11 degrees and at the zeros of the tangent near it. Proved: exactly when it raises, and only in (-5.2,-5)."
  },
  {
   "property": "C18",
   "status": "proved",
   "theorems": [
    "C18_longitude_periodic"
   ],
   "note": ""
  },
  {
   "property": "C19",
   "status": "proved",
   "theorems": [
    "C19_equatorial_coordinates"
   ],
   "note": ""
  },
  {
   "property": "C20",
   "status": "proved",
   "theorems": [
    "C20_ellipsoid",
    "C20_reduced_latitude"
   ],
   "note": ""
  },
  {
   "property": "C21",
   "status": "proved",
   "theorems": [
    "C21_distance",
    "C21_distance_of_datetime"
   ],
   "note": ""
  },
  {
   "property": "C22",
   "status": "proved",
   "theorems": [
    "C22_position_total"
   ],
   "note": ""
  },
  {
   "property": "C23",
   "status": "proved",
   "theorems": [
    "C23_vsop"
   ],
   "note": ""
  },
  {
   "property": "C24",
   "status": "proved",
   "theorems": [
    "C24_nutation"
   ],
   "note": ""
  },
  {
   "property": "C25",
   "status": "proved",
   "theorems": [
    "C25_mean_sidereal_time"
   ],
   "note": ""
  },
  {
   "property": "C26",
   "status": "partial",
   "theorems": [
    "C26_claim_refuted",
    "C26_apparent_sidereal_refuted",
    "C26_apparent_sidereal_partial",
    "C26_true_obliquity"
   ],
   "note": "REFUTED: false of the code; the cosine is taken of a number of degrees. Proved: what is returned and the size of the error."
  },
  {
   "property": "C27",
   "status": "partial",
   "theorems": [
    "C27_parallax_refuted",
    "C27_parallax_increases_refuted",
    "C27_parallax_partial"
   ],
   "note": "REFUTED: false of the code; the parallax grows with distance. Proved: error at most 0.0001 degrees for physical distances."
  },
  {
   "property": "C28",
   "status": "partial",
   "theorems": [
    "C28_topocentric_declination_refuted",
    "C28_topocentric_declination_partial"
   ],
   "note": "REFUTED: false of the code; the axial distance is used in place of the radial one. Proved: the hour angle is right and the declination error is at most 0.002 degrees per earth radius of |x-y|."
  },
  {
   "property": "C29",
   "status": "proved",
   "theorems": [
    "C29_incidence_angle"
   ],
   "note": ""
  },
  {
   "property": "C30",
   "status": "proved",
   "theorems": [
    "C30_zenith_angle"
   ],
   "note": ""
  },
  {
   "property": "C31",
   "status": "proved",
   "theorems": [
    "C31_fast_position"
   ],
   "note": ""
  },
  {
   "property": "C32",
   "status": "proved",
   "theorems": [
    "C32_ranges"
   ],
   "note": ""
  },
  {
   "property": "C33",
   "status": "partial",
   "theorems": [
    "C33_radiation_night_refuted",
    "C33_claim_refuted",
    "C33_radiation_night_partial",
    "C33_radiation_night_exact"
   ],
   "note": "REFUTED: false of the code; for altitudes just below 0 (at least all of [-0.011, 0)) the math back end raises OverflowError and numpy returns nan. Proved: 0 for altitudes up to -0.017 and at 0, otherwise 0 or OverflowError, and exactly when which."
  },
  {
   "property": "C34",
   "status": "proved",
   "theorems": [
    "C34_radiation_day"
   ],
   "note": ""
  },
  {
   "property": "C35",
   "status": "proved",
   "theorems": [
    "C35_sunrise_ordered",
    "C35_wrappers"
   ],
   "note": ""
  },
  {
   "property": "C36",
   "status": "proved",
   "theorems": [
    "C36_sunrise_equation"
   ],
   "note": ""
  },
  {
   "property": "C37",
   "status": "proved",
   "theorems": [
    "C37_raises_iff_no_sunrise",
    "C37_numpy_raises",
    "C37_numpy_same",
    "C37_poles"
   ],
   "note": ""
  },
  {
   "property": "C38",
   "status": "proved",
   "theorems": [
    "C38_sunrise_timezone_free"
   ],
   "note": ""
  },
  {
   "property": "C39",
   "status": "proved",
   "theorems": [
    "C39_transit_same_day"
   ],
   "note": ""
  },
  {
   "property": "C40",
   "status": "proved",
   "theorems": [
    "C40_datetime_range"
   ],
   "note": ""
  },
  {
   "property": "C41",
   "status": "partial",
   "theorems": [
    "C41_fractional_steps_refuted",
    "C41_coverage_partial"
   ],
   "note": "REFUTED: false of the code for fractional steps. Proved: coverage."
  },
  {
   "property": "C42",
   "status": "proved",
   "theorems": [
    "C42_simulate_span",
    "C42_horizon_in_bounds",
    "C42_range_no_index"
   ],
   "note": ""
  },
  {
   "property": "C43",
   "status": "partial",
   "theorems": [
    "C43_short_horizon_refuted",
    "C43_short_horizon_partial"
   ],
   "note": "REFUTED: false of the code; at every instant some place sees the sun at an azimuth rounding to 360, where a 360-entry horizon raises IndexError. Proved: exactly the azimuths from 359.5 raise."
  },
  {
   "property": "C44",
   "status": "proved",
   "theorems": [
    "C44_hydrostatic",
    "C44_standard_atmosphere",
    "C44_top"
   ],
   "note": ""
  },
  {
   "property": "C45",
   "status": "proved",
   "theorems": [
    "C45_irradiance"
   ],
   "note": ""
  },
  {
   "property": "C46",
   "status": "partial",
   "theorems": [
    "C46_clear_sky_sum_partial",
    "C46_clear_sky_inputs_refuted"
   ],
   "note": "REFUTED: false of the code; temperature and pressure are ignored by the clear-sky functions."
  },
  {
   "property": "C47",
   "status": "partial",
   "theorems": [
    "C47_distance_constant_refuted",
    "C47_claim_refuted",
    "C47_distance_partial"
   ],
   "note": "REFUTED: false of the code; the value is 1 on every day (the division by 365 is outside the sine, whose argument is a whole number of turns). Proved: error at most 0.0335."
  },
  {
   "property": "C48",
   "status": "partial",
   "theorems": [
    "C48_switch_history_refuted",
    "C48_switch_history_partial"
   ],
   "note": "REFUTED: false of the code: two module globals survive switching. Proved: which globals depend on the history."
  },
  {
   "property": "C49",
   "status": "partial",
   "theorems": [
    "C49_date_decompositions_agree",
    "C49_date_decompositions_seconds_refuted"
   ],
   "note": "Equal for whole-minute UTC offsets; REFUTED for offsets with seconds, which numpy drops."
  },
  {
   "property": "C50",
   "status": "proved",
   "theorems": [
    "C50_cache_transparent"
   ],
   "note": ""
  },
  {
   "property": "C51",
   "status": "partial",
   "theorems": [
    "C51_rest2_exceptions_partial",
    "C51_rest2_broadband_refuted"
   ],
   "note": "REFUTED: false of the code; every broadband function raises for every input."
  },
  {
   "property": "C52",
   "status": "proved",
   "theorems": [
    "C52_rayleigh",
    "C52_gas",
    "C52_ozone",
    "C52_nitrogen",
    "C52_water",
    "C52_aerosol"
   ],
   "note": ""
  },
  {
   "property": "C53",
   "status": "partial",
   "theorems": [
    "C53_claim_refuted",
    "C53_zenith_masses_refuted",
    "C53_masses_positive_partial",
    "C53_values_partial"
   ],
   "note": "REFUTED: false of the code; the masses at the zenith are between 3000 and 37000. Proved: all masses are positive for altitudes in [0,90]."
  },
  {
   "property": "C54",
   "status": "proved",
   "theorems": [
    "C54_arrays_of_times",
    "C54_arrays_of_locations",
    "C54_refraction",
    "C54_position_arrays"
   ],
   "note": ""
  },
  {
   "property": "C55",
   "status": "proved",
   "theorems": [
    "C55_position_pipeline"
   ],
   "note": ""
  },
  {
   "property": "C56",
   "status": "proved",
   "theorems": [
    "C56_close_to_published_algorithm"
   ],
   "note": ""
  },
  {
   "property": "C57",
   "status": "proved",
   "theorems": [
    "C57_position",
    "C57_fast"
   ],
   "note": ""
  },
  {
   "property": "C58",
   "status": "proved",
   "theorems": [
    "C58_declination_degree"
   ],
   "note": ""
  },
  {
   "property": "C59",
   "status": "partial",
   "theorems": [
    "C59_overcast_equal_refuted",
    "C59_overcast_never_equal_refuted",
    "C59_values_partial",
    "C59_same_diffuse_partial"
   ],
   "note": "REFUTED: false of the code; global is 572 times the altitude in degrees, diffuse is less than 448 times it, so they differ whenever the altitude is not 0 (turbidity up to 10). Proved: all three values, and that clear and overcast diffuse are the same function."
  },
  {
   "property": "C60",
   "status": "partial",
   "theorems": [
    "C60_elevation_functions_refuted",
    "C60_elevation_functions_partial"
   ],
   "note": "REFUTED: false of the code; the sine is taken of the altitude in degrees as if it were radians. Proved: exactly that value."
  },
  {
   "property": "C61",
   "status": "partial",
   "theorems": [
    "C61_direct_bounds_refuted",
    "C61_direct_value_partial",
    "C61_global_clear_value_partial"
   ],
   "note": "REFUTED: false of the code; negative at 30 degrees altitude at every instant, above 10^18 at 33 degrees in December. Proved: the exact value (the declination in degrees stands in place of the optical thickness)."
  },
  {
   "property": "C62",
   "status": "proved",
   "theorems": [
    "C62_clear_index",
    "C62_diffuse_ratio"
   ],
   "note": ""
  },
  {
   "property": "C63",
   "status": "proved",
   "theorems": [
    "C63_sky_albedo",
    "C63_backscatter",
    "C63_optical_depth",
    "C63_forward_fractions",
    "C63_correction_positive"
   ],
   "note": ""
  },
  {
   "property": "C64",
   "status": "proved",
   "theorems": [
    "C64_rest2_published",
    "C64_rest2_aerosol"
   ],
   "note": ""
  },
  {
   "property": "C65",
   "status": "partial",
   "theorems": [
    "C65_nitrogen_amount_refuted",
    "C65_nitrogen_ignored_refuted",
    "C65_nitrogen_value_partial"
   ],
   "note": "REFUTED: false of the code; the amount is replaced by 0.0003. Proved: the published value for 0.0003."
  },
  {
   "property": "C66",
   "status": "partial",
   "theorems": [
    "C66_stub_calls_refuted",
    "C66_stub_direct_refuted",
    "C66_stubs_correct_partial",
    "C66_stub_keywords_partial",
    "C66_binding_rule"
   ],
   "note": "REFUTED for five functions. Proved: the other 68 stubs bind every call as the implementation does; keyword-only calls are safe for all but two."
  },
  {
   "property": "C67",
   "status": "proved",
   "theorems": [
    "C67_table_round_trip",
    "C67_rejects_gaps",
    "C67_committed_table"
   ],
   "note": ""
  },
  {
   "property": "C68",
   "status": "proved",
   "theorems": [
    "C68_when_checked",
    "C68_undecorated"
   ],
   "note": ""
  },
  {
   "property": "C69",
   "status": "proved",
   "theorems": [
    "C69_azimuth_range64"
   ],
   "note": ""
  },
  {
   "property": "C70",
   "status": "partial",
   "theorems": [
    "C70_reduced_below_360_refuted",
    "C70_reduced_angles_partial",
    "C70_exact_reduction_partial"
   ],
   "note": "REFUTED: false of the code; get_local_hour_angle(0, 0, 1e-20) is 360.0. Proved: at most 360; below 360 for the geocentric longitude and whenever the angle reduced is not negative."
  },
  {
   "property": "C71",
   "status": "partial",
   "theorems": [
    "C71_elevation_defined_refuted",
    "C71_elevation_range_partial"
   ],
   "note": "REFUTED: false of the code; (8, 8, 0) raises ValueError. Proved: the result, when there is one, is NaN or in [-90, 90]."
  },
  {
   "property": "C72",
   "status": "partial",
   "theorems": [
    "C72_incidence_defined_refuted",
    "C72_incidence_range_partial"
   ],
   "note": "REFUTED: false of the code; (8, 8, 0, 180) raises ValueError. Proved: the result, when there is one, is NaN or in [0, 180]."
  },
  {
   "property": "C73",
   "status": "partial",
   "theorems": [
    "C73_azimuth_fast_defined_refuted",
    "C73_azimuth_fast_range_partial"
   ],
   "note": "REFUTED: false of the code; raises ValueError at latitude 0, longitude 0 at 00:05 UTC on day 81 of every year. Proved: the result, when there is one, is NaN or in [0, 360]."
  },
  {
   "property": "C74",
   "status": "proved",
   "theorems": [
    "C74_julian_accuracy64"
   ],
   "note": ""
  },
  {
   "property": "C75",
   "status": "partial",
   "theorems": [
    "C75_ephemeris_day_increasing_refuted",
    "C75_ephemeris_day_increasing_partial"
   ],
   "note": "REFUTED: false of the code; one microsecond is not resolved. Proved: increasing for instants 300 microseconds apart (54 from 1834 to 2105)."
  },
  {
   "property": "C76",
   "status": "proved",
   "theorems": [
    "C76_position_accuracy64"
   ],
   "note": ""
  },
  {
   "property": "C77",
   "status": "proved",
   "theorems": [
    "C77_azimuth_accuracy64"
   ],
   "note": ""
  },
  {
   "property": "C78",
   "status": "proved",
   "theorems": [
    "C78_altitude_accuracy64"
   ],
   "note": ""
  },
  {
   "property": "C79",
   "status": "proved",
   "theorems": [
    "C79_close_to_published_algorithm64"
   ],
   "note": ""
  },
  {
   "property": "C80",
   "status": "proved",
   "theorems": [
    "C80_fast_direction_close"
   ],
   "note": ""
  },
  {
   "property": "C81",
   "status": "proved",
   "theorems": [
    "C81_fast_altitude_close"
   ],
   "note": ""
  },
  {
   "property": "C82",
   "status": "proved",
   "theorems": [
    "C82_fast_azimuth_close"
   ],
   "note": ""
  },
  {
   "property": "C83",
   "status": "partial",
   "theorems": [
    "C83_sunrise_elevation_refuted",
    "C83_clock_change",
    "C83_sunrise_elevation_partial"
   ],
   "note": "REFUTED: false of the code; the UTC offset is read off the argument, so when the clocks change between it and sunrise the result is an hour off (witness: the sun more than 7 degrees below the horizon). Proved: within 1.34 degrees whenever the offset is the same at both."
  },
  {
   "property": "C84",
   "status": "proved",
   "theorems": [
    "C84_sunrise_in_the_east"
   ],
   "note": ""
  },
  {
   "property": "C85",
   "status": "proved",
   "theorems": [
    "C85_transit_on_the_meridian"
   ],
   "note": ""
  },
  {
   "property": "C86",
   "status": "proved",
   "theorems": [
    "C86_antipodes"
   ],
   "note": ""
  },
  {
   "property": "C87",
   "status": "proved",
   "theorems": [
    "C87_moving_observer"
   ],
   "note": ""
  },
  {
   "property": "C88",
   "status": "proved",
   "theorems": [
    "C88_motion"
   ],
   "note": ""
  },
  {
   "property": "C89",
   "status": "proved",
   "theorems": [
    "C89_tropics"
   ],
   "note": ""
  },
  {
   "property": "C90",
   "status": "proved",
   "theorems": [
    "C90_every_hour_angle_every_day"
   ],
   "note": ""
  },
  {
   "property": "C91",
   "status": "proved",
   "theorems": [
    "C91_day_and_night"
   ],
   "note": ""
  },
  {
   "property": "C92",
   "status": "proved",
   "theorems": [
    "C92_quick_quantities64",
    "C92_quick_altitude64"
   ],
   "note": ""
  },
  {
   "property": "C93",
   "status": "proved",
   "theorems": [
    "C93_quick_azimuth64"
   ],
   "note": ""
  },
  {
   "property": "C94",
   "status": "proved",
   "theorems": [
    "C94_irradiance64_day",
    "C94_irradiance64_night"
   ],
   "note": ""
  },
  {
   "property": "C95",
   "status": "proved",
   "theorems": [
    "C95_irradiance_smooth",
    "C95_irradiance64_of_inexact_altitude"
   ],
   "note": ""
  },
  {
   "property": "C96",
   "status": "proved",
   "theorems": [
    "C96_sunrise64"
   ],
   "note": ""
  },
  {
   "property": "C97",
   "status": "proved",
   "theorems": [
    "C97_position",
    "C97_fast",
    "C97_sunrise",
    "C97_arrays",
    "C97_arrays_total",
    "C97_accuracy",
    "C97_accuracy_arrays"
   ],
   "note": ""
  },
  {
   "property": "C98",
   "status": "partial",
   "theorems": [
    "C98_irradiance_same_refuted",
    "C98_irradiance_same_partial",
    "C98_irradiance_accuracy_partial"
   ],
   "note": "REFUTED: false of the code; at altitude -0.0 math returns 0 and numpy nan. Proved: the same double whenever the sine of the altitude is not zero; within 3e-12 of the exact value for altitudes from 1e-270 to 90."
  },
  {
   "property": "C99",
   "status": "proved",
   "theorems": [
    "C99_seasons",
    "C99_midnight_sun",
    "C99_polar_night",
    "C99_poles"
   ],
   "note": ""
  },
  {
   "property": "C100",
   "status": "proved",
   "theorems": [
    "C100_morning_east_afternoon_west",
    "C100_culmination",
    "C100_transit_due_south"
   ],
   "note": ""
  },
  {
   "property": "C101",
   "status": "proved",
   "theorems": [
    "C101_day",
    "C101_night"
   ],
   "note": ""
  },
  {
   "property": "C102",
   "status": "proved",
   "theorems": [
    "C102_incidence64"
   ],
   "note": ""
  },
  {
   "property": "C103",
   "status": "proved",
   "theorems": [
    "C103_standard_atmosphere64"
   ],
   "note": ""
  },
  {
   "property": "C104",
   "status": "proved",
   "theorems": [
    "C104_text_round_trip",
    "C104_rejects_gaps",
    "C104_rejects_short_lines"
   ],
   "note": ""
  },
  {
   "property": "C105",
   "status": "partial",
   "theorems": [
    "C105_output_readable_refuted",
    "C105_output_readable_partial"
   ],
   "note": "REFUTED: false of the code; float() accepts nan (and inf), which is written as a name Python does not know. Proved: readable and within 5.1e-5 (plus relative 1.2e-16) for finite values up to 2^900."
  },
  {
   "property": "C106",
   "status": "proved",
   "theorems": [
    "C106_source_table",
    "C106_source_generated"
   ],
   "note": ""
  },
  {
   "property": "C107",
   "status": "proved",
   "theorems": [
    "C107_lipschitz"
   ],
   "note": ""
  },
  {
   "property": "C108",
   "status": "proved",
   "theorems": [
    "C108_every_level"
   ],
   "note": ""
  },
  {
   "property": "C109",
   "status": "partial",
   "theorems": [
    "C109_irradiance_refuted",
    "C109_irradiance_partial"
   ],
   "note": "REFUTED: false of the code; on every UTC day, at every place up to 65 degrees of latitude, there is an instant at which the reported altitude lies in [-0.011, 0) and get_radiation_direct raises OverflowError. Proved: a number of the stated sign outside (-0.017, 0), and 0 or OverflowError inside."
  },
  {
   "property": "C110",
   "status": "proved",
   "theorems": [
    "C110_solar_test",
    "C110_can_fail_at_once"
   ],
   "note": "The printed line is a record of the datetime and the three numbers; ctime() and repr are not modelled."
  },
  {
   "property": "C111",
   "status": "proved",
   "theorems": [
    "C111_elevation_test"
   ],
   "note": ""
  },
  {
   "property": "C112",
   "status": "proved",
   "theorems": [
    "C112_overflow64",
    "C112_solar_test64"
   ],
   "note": ""
  },
  {
   "property": "C113",
   "status": "partial",
   "theorems": [
    "C113_request_refuted",
    "C113_request_partial"
   ],
   "note": "REFUTED: false of the code; divmod rounds down, so -0.5 is sent as 1 degree 30 minutes with a minus sign, and the seconds are sent in degrees. Proved: right exactly for whole degrees and for non-negative whole minutes, with error bounds elsewhere."
  },
  {
   "property": "C114",
   "status": "partial",
   "theorems": [
    "C114_comparison_refuted",
    "C114_comparison_partial",
    "C114_answer"
   ],
   "note": "REFUTED: false of the code; 180 - azimuth is compared, so with the sun due south an exactly agreeing datum gets an azimuth error of 180. Proved: the altitude error is right; which angle the azimuth error is."
  },
  {
   "property": "C115",
   "status": "partial",
   "theorems": [
    "C115_log_refuted",
    "C115_log_partial"
   ],
   "note": "REFUTED: false of the code; a datum with a UTC offset (as each one read from a log has) or a fraction of a second makes the log unreadable (ValueError). Proved: the round trip for naive whole seconds."
  },
  {
   "property": "C116",
   "status": "proved",
   "theorems": [
    "C116_horizon_in_bounds64",
    "C116_row_day64",
    "C116_row_night64"
   ],
   "note": ""
  },
  {
   "property": "C117",
   "status": "proved",
   "theorems": [
    "C117_test_suite64"
   ],
   "note": ""
  },
  {
   "property": "C118",
   "status": "proved",
   "theorems": [
    "C118_altitude_order",
    "C118_altitude_order64"
   ],
   "note": ""
  },
  {
   "property": "C119",
   "status": "proved",
   "theorems": [
    "C119_elevation_climbs",
    "C119_altitude_climbs",
    "C119_altitude_climbs64"
   ],
   "note": ""
  },
  {
   "property": "C120",
   "status": "proved",
   "theorems": [
    "C120_rises_below_65",
    "C120_poleward",
    "C120_lengthens",
    "C120_equator",
    "C120_rises_below_65_b64",
    "C120_poleward_b64",
    "C120_lengthens_b64"
   ],
   "note": ""
  },
  {
   "property": "C121",
   "status": "proved",
   "theorems": [
    "C121_highest_at_transit",
    "C121_altitude"
   ],
   "note": ""
  },
  {
   "property": "C122",
   "status": "proved",
   "theorems": [
    "C122_irradiance_climbs"
   ],
   "note": ""
  },
  {
   "property": "C123",
   "status": "proved",
   "theorems": [
    "C123_horizon64",
    "C123_transit64",
    "C123_every_day_below_65"
   ],
   "note": ""
  },
  {
   "property": "C124",
   "status": "proved",
   "theorems": [
    "C124_only_arithmetic",
    "C124_only_arithmetic_clock",
    "C124_doubles"
   ],
   "note": ""
  },
  {
   "property": "C125",
   "status": "proved",
   "theorems": [
    "C125_array_beam_night",
    "C125_array_beam_day",
    "C125_repository_test"
   ],
   "note": ""
  },
  {
   "property": "C126",
   "status": "proved",
   "theorems": [
    "C126_extraterrestrial",
    "C126_clear_index",
    "C126_sky_functions",
    "C126_direct",
    "C126_global_clear"
   ],
   "note": ""
  },
  {
   "property": "C127",
   "status": "proved",
   "theorems": [
    "C127_rest2_doubles",
    "C127_aerosols",
    "C127_powers"
   ],
   "note": ""
  }
 ]
}