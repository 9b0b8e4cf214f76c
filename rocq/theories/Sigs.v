(* GENERATED by tools/gen_sigs.py from the def statements of /repo/pysolar/*.py and *.pyi; do not
   edit by hand.  Per function: module.name, the parameters in order, each with whether it has a
   default; for the implementation also the arguments of its @check_aware_dt decorator.  No
   function listed has *args, **kwargs or keyword-only parameters. *)
From Coq Require Import List String.
Import ListNotations.
Local Open Scope string_scope.

(* pysolar/*.py *)
Definition impl_sigs : list (string * list (string * bool) * option (list string)) :=
  [ ("solar.solar_test", [], None);
    ("solar.equation_of_time", [("day", false)], None);
    ("solar.get_aberration_correction", [("sun_earth_distance", false)], None);
    ("solar.get_topocentric_position", [("latitude_deg", false); ("longitude_deg", false); ("when", false); ("elevation", true)], Some ["when"]);
    ("solar.get_position", [("latitude_deg", false); ("longitude_deg", false); ("when", false); ("elevation", true); ("temperature", true); ("pressure", true)], Some ["when"]);
    ("solar.get_altitude", [("latitude_deg", false); ("longitude_deg", false); ("when", false); ("elevation", true); ("temperature", true); ("pressure", true)], Some ["when"]);
    ("solar.get_altitude_fast", [("latitude_deg", false); ("longitude_deg", false); ("when", false)], Some ["when"]);
    ("solar.get_apparent_sidereal_time", [("jd", false); ("jme", false); ("nutation", false)], None);
    ("solar.get_apparent_sun_longitude", [("geocentric_longitude", false); ("nutation", false); ("ab_correction", false)], None);
    ("solar.get_azimuth", [("latitude_deg", false); ("longitude_deg", false); ("when", false); ("elevation", true)], Some ["when"]);
    ("solar.get_azimuth_fast", [("latitude_deg", false); ("longitude_deg", false); ("when", false)], None);
    ("solar.get_coeff", [("jme", false); ("coeffs", false)], None);
    ("solar.get_declination", [("day", false)], None);
    ("solar.get_equatorial_horizontal_parallax", [("sun_earth_distance", false)], None);
    ("solar.get_flattened_latitude", [("latitude", false)], None);
    ("solar.get_geocentric_latitude", [("jme", false)], None);
    ("solar.get_geocentric_longitude", [("jme", false)], None);
    ("solar.get_geocentric_sun_declination", [("apparent_sun_longitude", false); ("true_ecliptic_obliquity", false); ("geocentric_latitude", false)], None);
    ("solar.get_geocentric_sun_right_ascension", [("apparent_sun_longitude", false); ("true_ecliptic_obliquity", false); ("geocentric_latitude", false)], None);
    ("solar.get_heliocentric_latitude", [("jme", false)], None);
    ("solar.get_heliocentric_longitude", [("jme", false)], None);
    ("solar.get_hour_angle", [("when", false); ("longitude_deg", false)], Some ["when"]);
    ("solar.get_incidence_angle", [("topocentric_zenith_angle", false); ("slope", false); ("slope_orientation", false); ("topocentric_azimuth_angle", false)], None);
    ("solar.get_local_hour_angle", [("apparent_sidereal_time", false); ("longitude", false); ("geocentric_sun_right_ascension", false)], None);
    ("solar.get_mean_sidereal_time", [("jd", false)], None);
    ("solar.get_nutation", [("jce", false)], None);
    ("solar.get_parallax_sun_right_ascension", [("projected_radial_distance", false); ("equatorial_horizontal_parallax", false); ("local_hour_angle", false); ("geocentric_sun_declination", false)], None);
    ("solar.get_projected_radial_distance", [("elevation", false); ("latitude", false)], None);
    ("solar.get_projected_axial_distance", [("elevation", false); ("latitude", false)], None);
    ("solar.get_sun_earth_distance", [("jme", false)], None);
    ("solar.get_refraction_correction", [("pressure", false); ("temperature", false); ("topocentric_elevation_angle", false)], None);
    ("solar.get_solar_time", [("longitude_deg", false); ("when", false)], Some ["when"]);
    ("solar.get_topocentric_azimuth_angle", [("topocentric_local_hour_angle", false); ("latitude", false); ("topocentric_sun_declination", false)], None);
    ("solar.get_topocentric_elevation_angle", [("latitude", false); ("topocentric_sun_declination", false); ("topocentric_local_hour_angle", false)], None);
    ("solar.get_topocentric_local_hour_angle", [("local_hour_angle", false); ("parallax_sun_right_ascension", false)], None);
    ("solar.get_topocentric_sun_declination", [("geocentric_sun_declination", false); ("projected_axial_distance", false); ("equatorial_horizontal_parallax", false); ("parallax_sun_right_ascension", false); ("local_hour_angle", false)], None);
    ("solar.get_topocentric_sun_right_ascension", [("projected_radial_distance", false); ("equatorial_horizontal_parallax", false); ("local_hour_angle", false); ("apparent_sun_longitude", false); ("true_ecliptic_obliquity", false); ("geocentric_latitude", false)], None);
    ("solar.get_topocentric_zenith_angle", [("latitude", false); ("topocentric_sun_declination", false); ("topocentric_local_hour_angle", false); ("pressure", false); ("temperature", false)], None);
    ("solar.get_true_ecliptic_obliquity", [("jme", false); ("nutation", false)], None);
    ("solartime.get_leap_seconds", [("when", false)], Some ["when"]);
    ("solartime.get_delta_t", [("when", false)], Some ["when"]);
    ("solartime.get_julian_solar_day", [("when", false)], Some ["when"]);
    ("solartime.get_julian_ephemeris_day", [("when", false)], Some ["when"]);
    ("solartime.get_julian_century", [("julian_day", false)], None);
    ("solartime.get_julian_ephemeris_century", [("julian_ephemeris_day", false)], None);
    ("solartime.get_julian_ephemeris_millennium", [("julian_ephemeris_century", false)], None);
    ("radiation.get_air_mass_ratio", [("altitude_deg", false)], None);
    ("radiation.get_apparent_extraterrestrial_flux", [("day", false)], None);
    ("radiation.get_optical_depth", [("day", false)], None);
    ("radiation.get_radiation_direct", [("when", false); ("altitude_deg", false)], None);
    ("elevation.get_pressure_with_elevation", [("h", false); ("Ps", true); ("Ts", true); ("Tl", true); ("Hb", true); ("R", true); ("g", true); ("M", true)], None);
    ("elevation.get_temperature_with_elevation", [("h", false); ("Ts", true); ("Tl", true)], None);
    ("elevation.elevation_test", [], None);
    ("constants.get_aberration_coeffs", [], None);
    ("simulate.datetime_range", [("start_datetime", false); ("end_datetime", false); ("step_minutes", false)], None);
    ("simulate.simulate_span", [("latitude_deg", false); ("longitude_deg", false); ("horizon", false); ("start_datetime", false); ("end_datetime", false); ("step_minutes", false); ("elevation", true); ("temperature", true); ("pressure", true)], None);
    ("util.get_sunrise_sunset_transit", [("latitude_deg", false); ("longitude_deg", false); ("when", false)], Some ["when"]);
    ("util.get_sunrise_sunset", [("latitude_deg", false); ("longitude_deg", false); ("when", false)], Some ["when"]);
    ("util.get_sunrise_time", [("latitude_deg", false); ("longitude_deg", false); ("when", false)], Some ["when"]);
    ("util.get_sunset_time", [("latitude_deg", false); ("longitude_deg", false); ("when", false)], Some ["when"]);
    ("util.get_transit_time", [("latitude_deg", false); ("longitude_deg", false); ("when", false)], Some ["when"]);
    ("util.mean_earth_sun_distance", [("when", false)], Some ["when"]);
    ("util.extraterrestrial_irrad", [("latitude_deg", false); ("longitude_deg", false); ("when", false); ("SC", true)], Some ["when"]);
    ("util.declination_degree", [("when", false); ("TY", true)], Some ["when"]);
    ("util.solarelevation_function_clear", [("latitude_deg", false); ("longitude_deg", false); ("when", false); ("temperature", true); ("pressure", true); ("elevation", true)], Some ["when"]);
    ("util.solarelevation_function_overcast", [("latitude_deg", false); ("longitude_deg", false); ("when", false); ("elevation", true); ("temperature", true); ("pressure", true)], Some ["when"]);
    ("util.diffuse_transmittance", [("TL", true)], None);
    ("util.diffuse_underclear", [("latitude_deg", false); ("longitude_deg", false); ("when", false); ("elevation", true); ("temperature", true); ("pressure", true); ("TL", true)], Some ["when"]);
    ("util.diffuse_underovercast", [("latitude_deg", false); ("longitude_deg", false); ("when", false); ("elevation", true); ("temperature", true); ("pressure", true); ("TL", true)], Some ["when"]);
    ("util.direct_underclear", [("latitude_deg", false); ("longitude_deg", false); ("when", false); ("TY", true); ("AM", true); ("TL", true); ("elevation", true); ("temperature", true); ("pressure", true)], Some ["when"]);
    ("util.global_irradiance_clear", [("latitude_deg", false); ("longitude_deg", false); ("when", false); ("TY", true); ("AM", true); ("TL", true); ("elevation", true); ("temperature", true); ("pressure", true)], Some ["when"]);
    ("util.global_irradiance_overcast", [("latitude_deg", false); ("longitude_deg", false); ("when", false); ("elevation", true); ("temperature", true); ("pressure", true)], Some ["when"]);
    ("util.diffuse_ratio", [("DIFF_data", false); ("ghi_data", false)], None);
    ("util.clear_index", [("ghi_data", false); ("latitude_deg", false); ("longitude_deg", false); ("when", false)], Some ["when"]) ].

(* pysolar/*.pyi *)
Definition stub_sigs : list (string * list (string * bool)) :=
  [ ("solar.solar_test", []);
    ("solar.equation_of_time", [("day", false)]);
    ("solar.get_aberration_correction", [("sun_earth_distance", false)]);
    ("solar.get_altitude", [("latitude_deg", false); ("longitude_deg", false); ("when", false); ("elevation", true); ("temperature", true); ("pressure", true)]);
    ("solar.get_altitude_fast", [("latitude_deg", false); ("longitude_deg", false); ("when", false)]);
    ("solar.get_apparent_sidereal_time", [("jd", false); ("jme", false); ("nutation_float", false)]);
    ("solar.get_apparent_sun_longitude", [("geocentric_longitude", false); ("nutation", false); ("ab_correction", false)]);
    ("solar.get_azimuth", [("latitude_deg", false); ("longitude_deg", false); ("when", false); ("elevation", true)]);
    ("solar.get_azimuth_fast", [("latitude_deg", false); ("longitude_deg", false); ("when", false)]);
    ("solar.get_coeff", [("jme", false); ("coeffs", false)]);
    ("solar.get_declination", [("day", false)]);
    ("solar.get_equatorial_horizontal_parallax", [("sun_earth_distance", false)]);
    ("solar.get_flattened_latitude", [("latitude", false)]);
    ("solar.get_geocentric_latitude", [("jme", false)]);
    ("solar.get_geocentric_longitude", [("jme", false)]);
    ("solar.get_geocentric_sun_declination", [("apparent_sun_longitude", false); ("true_ecliptic_obliquity", false); ("geocentric_latitude", false)]);
    ("solar.get_geocentric_sun_right_ascension", [("apparent_sun_longitude", false); ("true_ecliptic_obliquity", false); ("geocentric_latitude", false)]);
    ("solar.get_heliocentric_latitude", [("jme", false)]);
    ("solar.get_heliocentric_longitude", [("jme", false)]);
    ("solar.get_hour_angle", [("when", false); ("longitude_deg", false)]);
    ("solar.get_incidence_angle", [("topocentric_zenith_angle", false); ("slope", false); ("slope_orientation", false); ("topocentric_azimuth_angle", false)]);
    ("solar.get_local_hour_angle", [("apparent_sidereal_time", false); ("longitude", false); ("geocentric_sun_right_ascension", false)]);
    ("solar.get_mean_sidereal_time", [("jd", false)]);
    ("solar.get_nutation", [("jce", false)]);
    ("solar.get_parallax_sun_right_ascension", [("projected_radial_distance", false); ("equatorial_horizontal_parallax", false); ("local_hour_angle", false); ("geocentric_sun_declination", false)]);
    ("solar.get_position", [("latitude_deg", false); ("longitude_deg", false); ("when", false); ("elevation", true); ("temperature", true); ("pressure", true)]);
    ("solar.get_projected_radial_distance", [("elevation", false); ("latitude", false)]);
    ("solar.get_projected_axial_distance", [("elevation", false); ("latitude", false)]);
    ("solar.get_sun_earth_distance", [("jme", false)]);
    ("solar.get_refraction_correction", [("pressure", false); ("temperature", false); ("topocentric_elevation_angle", false)]);
    ("solar.get_solar_time", [("longitude_deg", false); ("when", false)]);
    ("solar.get_topocentric_azimuth_angle", [("topocentric_local_hour_angle", false); ("latitude", false); ("topocentric_sun_declination", false)]);
    ("solar.get_topocentric_elevation_angle", [("latitude", false); ("topocentric_sun_declination", false); ("topocentric_local_hour_angle", false)]);
    ("solar.get_topocentric_local_hour_angle", [("local_hour_angle", false); ("parallax_sun_right_ascension", false)]);
    ("solar.get_topocentric_sun_declination", [("geocentric_sun_declination", false); ("projected_axial_distance", false); ("equatorial_horizontal_parallax", false); ("parallax_sun_right_ascension", false); ("local_hour_angle", false)]);
    ("solar.get_topocentric_sun_right_ascension", [("projected_radial_distance", false); ("equatorial_horizontal_parallax", false); ("local_hour_angle", false); ("apparent_sun_longitude", false); ("true_ecliptic_obliquity", false); ("geocentric_latitude", false)]);
    ("solar.get_topocentric_zenith_angle", [("latitude", false); ("topocentric_sun_declination", false); ("topocentric_local_hour_angle", false); ("pressure", false); ("temperature", false)]);
    ("solar.get_true_ecliptic_obliquity", [("jme", false); ("nutation", false)]);
    ("solartime.get_leap_seconds", [("when", false)]);
    ("solartime.get_delta_t", [("when", false)]);
    ("solartime.get_julian_solar_day", [("when", false)]);
    ("solartime.get_julian_ephemeris_day", [("when", false)]);
    ("solartime.get_julian_century", [("julian_day", false)]);
    ("solartime.get_julian_ephemeris_century", [("julian_ephemeris_day", false)]);
    ("solartime.get_julian_ephemeris_millennium", [("julian_ephemeris_century", false)]);
    ("radiation.get_air_mass_ratio", [("altitude_deg", false)]);
    ("radiation.get_apparent_extraterrestrial_flux", [("day", false)]);
    ("radiation.get_optical_depth", [("day", false)]);
    ("radiation.get_radiation_direct", [("when", false); ("altitude_deg", false)]);
    ("elevation.get_pressure_with_elevation", [("h", false); ("Ps", true); ("Ts", true); ("Tl", true); ("Hb", true); ("R", true); ("g", true); ("M", true)]);
    ("elevation.get_temperature_with_elevation", [("h", false); ("Ts", true); ("Tl", true)]);
    ("elevation.elevation_test", []);
    ("constants.get_aberration_coeffs", []);
    ("simulate.datetime_range", [("start_datetime", false); ("end_datetime", false); ("step_minutes", false)]);
    ("simulate.simulate_span", [("latitude_deg", false); ("longitude_deg", false); ("horizon", false); ("start_datetime", false); ("end_datetime", false); ("step_minutes", false); ("elevation", true); ("temperature", true); ("pressure", true)]);
    ("util.get_sunrise_sunset_transit", [("latitude_deg", false); ("longitude_deg", false); ("when", false)]);
    ("util.get_sunrise_sunset", [("latitude_deg", false); ("longitude_deg", false); ("when", false)]);
    ("util.get_sunrise_time", [("latitude_deg", false); ("longitude_deg", false); ("when", false)]);
    ("util.get_sunset_time", [("latitude_deg", false); ("longitude_deg", false); ("when", false)]);
    ("util.get_transit_time", [("latitude_deg", false); ("longitude_deg", false); ("when", false)]);
    ("util.mean_earth_sun_distance", [("when", false)]);
    ("util.extraterrestrial_irrad", [("when", false); ("latitude_deg", false); ("longitude_deg", false); ("SC", true)]);
    ("util.declination_degree", [("when", false); ("TY", true)]);
    ("util.solarelevation_function_clear", [("latitude_deg", false); ("longitude_deg", false); ("when", false); ("temperature", true); ("pressure", true); ("elevation", true)]);
    ("util.solarelevation_function_overcast", [("latitude_deg", false); ("longitude_deg", false); ("when", false); ("elevation", true); ("temperature", true); ("pressure", true)]);
    ("util.diffuse_transmittance", [("TL", true)]);
    ("util.diffuse_underclear", [("latitude_deg", false); ("longitude_deg", false); ("when", false); ("elevation", true); ("temperature", true); ("pressure", true); ("TL", true)]);
    ("util.diffuse_underovercast", [("latitude_deg", false); ("longitude_deg", false); ("when", false); ("elevation", true); ("temperature", true); ("pressure", true); ("TL", true)]);
    ("util.direct_underclear", [("latitude_deg", false); ("longitude_deg", false); ("when", false); ("temperature", true); ("pressure", true); ("TY", true); ("AM", true); ("TL", true); ("elevation", true)]);
    ("util.global_irradiance_clear", [("DIRC", false); ("DIFFC", false); ("latitude_deg", false); ("longitude_deg", false); ("when", false); ("temperature", true); ("pressure", true); ("TY", true); ("AM", true); ("TL", true); ("elevation", true)]);
    ("util.global_irradiance_overcast", [("latitude_deg", false); ("longitude_deg", false); ("when", false); ("elevation", true); ("temperature", true); ("pressure", true)]);
    ("util.diffuse_ratio", [("DIFF_data", false); ("ghi_data", false)]);
    ("util.clear_index", [("ghi_data", false); ("when", false); ("latitude_deg", false); ("longitude_deg", false)]) ].
