"""Regenerate MANIFEST.json from the theorem names in rocq/theories/Prop*.v.

A property is `proved` when none of its theorems has the suffix _refuted or _partial."""
import glob, json, re
NOTES = {
 "C113": "REFUTED: false of the code; divmod rounds down, so -0.5 is sent as 1 degree 30 minutes with a minus sign, and the seconds are sent in degrees. Proved: right exactly for whole degrees and for non-negative whole minutes, with error bounds elsewhere.",
 "C114": "REFUTED: false of the code; 180 - azimuth is compared, so with the sun due south an exactly agreeing datum gets an azimuth error of 180. Proved: the altitude error is right; which angle the azimuth error is.",
 "C115": "REFUTED: false of the code; a datum with a UTC offset (as each one read from a log has) or a fraction of a second makes the log unreadable (ValueError). Proved: the round trip for naive whole seconds.",
 "C83": "REFUTED: false of the code; the UTC offset is read off the argument, so when the clocks change between it and sunrise the result is an hour off (witness: the sun more than 7 degrees below the horizon). Proved: within 1.34 degrees whenever the offset is the same at both.",
 "C109": "REFUTED: false of the code; on every UTC day, at every place up to 65 degrees of latitude, there is an instant at which the reported altitude lies in [-0.011, 0) and get_radiation_direct raises OverflowError. Proved: a number of the stated sign outside (-0.017, 0), and 0 or OverflowError inside.",
 "C110": "The printed line is a record of the datetime and the three numbers; ctime() and repr are not modelled.",
 "C105": "REFUTED: false of the code; float() accepts nan (and inf), which is written as a name Python does not know. Proved: readable and within 5.1e-5 (plus relative 1.2e-16) for finite values up to 2^900.",
 "C06": "REFUTED: false of the code; after the table get_delta_t returns the last year's entry for that calendar month, so it jumps back. Proved: exactly which entry is returned.",
 "C10": "REFUTED: false of the code; the Julian solar day decreases across some month boundaries because the Delta-T table steps. Proved: increasing within a UTC month, and for instants at least 0.11 s apart.",
 "C11": "REFUTED: false of the code; get_radiation_direct is undecorated and returns a number for a naive datetime. Proved: every other entry point raises NoTimeZoneInfoError.",
 "C16": "REFUTED: false of the code; the correction is negative near the zenith (also at 90 degrees). Proved: non-negative up to 89.89 degrees, proportional to pressure, inversely to temperature, 0 below the threshold, the published formula above it.",
 "C17": "REFUTED: false of the code; ZeroDivisionError at -5.11 degrees and at the zeros of the tangent near it. Proved: exactly when it raises, and only in (-5.2,-5).",
 "C26": "REFUTED: false of the code; the cosine is taken of a number of degrees. Proved: what is returned and the size of the error.",
 "C27": "REFUTED: false of the code; the parallax grows with distance. Proved: error at most 0.0001 degrees for physical distances.",
 "C28": "REFUTED: false of the code; the axial distance is used in place of the radial one. Proved: the hour angle is right and the declination error is at most 0.002 degrees per earth radius of |x-y|.",
 "C33": "REFUTED: false of the code; for altitudes just below 0 (at least all of [-0.011, 0)) the math back end raises OverflowError and numpy returns nan. Proved: 0 for altitudes up to -0.017 and at 0, otherwise 0 or OverflowError, and exactly when which.",
 "C43": "REFUTED: false of the code; at every instant some place sees the sun at an azimuth rounding to 360, where a 360-entry horizon raises IndexError. Proved: exactly the azimuths from 359.5 raise.",
 "C47": "REFUTED: false of the code; the value is 1 on every day (the division by 365 is outside the sine, whose argument is a whole number of turns). Proved: error at most 0.0335.",
 "C53": "REFUTED: false of the code; the masses at the zenith are between 3000 and 37000. Proved: all masses are positive for altitudes in [0,90].",
 "C41": "REFUTED: false of the code for fractional steps. Proved: coverage.",
 "C46": "REFUTED: false of the code; temperature and pressure are ignored by the clear-sky functions.",
 "C48": "REFUTED: false of the code: two module globals survive switching. Proved: which globals depend on the history.",
 "C49": "Equal for whole-minute UTC offsets; REFUTED for offsets with seconds, which numpy drops.",
 "C51": "REFUTED: false of the code; every broadband function raises for every input.",
 "C59": "REFUTED: false of the code; global is 572 times the altitude in degrees, diffuse is less than 448 times it, so they differ whenever the altitude is not 0 (turbidity up to 10). Proved: all three values, and that clear and overcast diffuse are the same function.",
 "C60": "REFUTED: false of the code; the sine is taken of the altitude in degrees as if it were radians. Proved: exactly that value.",
 "C61": "REFUTED: false of the code; negative at 30 degrees altitude at every instant, above 10^18 at 33 degrees in December. Proved: the exact value (the declination in degrees stands in place of the optical thickness).",
 "C65": "REFUTED: false of the code; the amount is replaced by 0.0003. Proved: the published value for 0.0003.",
 "C66": "REFUTED for five functions. Proved: the other 68 stubs bind every call as the implementation does; keyword-only calls are safe for all but two.",
 "C70": "REFUTED: false of the code; get_local_hour_angle(0, 0, 1e-20) is 360.0. Proved: at most 360; below 360 for the geocentric longitude and whenever the angle reduced is not negative.",
 "C71": "REFUTED: false of the code; (8, 8, 0) raises ValueError. Proved: the result, when there is one, is NaN or in [-90, 90].",
 "C72": "REFUTED: false of the code; (8, 8, 0, 180) raises ValueError. Proved: the result, when there is one, is NaN or in [0, 180].",
 "C73": "REFUTED: false of the code; raises ValueError at latitude 0, longitude 0 at 00:05 UTC on day 81 of every year. Proved: the result, when there is one, is NaN or in [0, 360].",
 "C98": "REFUTED: false of the code; at altitude -0.0 math returns 0 and numpy nan. Proved: the same double whenever the sine of the altitude is not zero; within 3e-12 of the exact value for altitudes from 1e-270 to 90.",
 "C75": "REFUTED: false of the code; one microsecond is not resolved. Proved: increasing for instants 300 microseconds apart (54 from 1834 to 2105).",
}
names = {}
for f in sorted(glob.glob('/verif/rocq/theories/Prop*.v')):
    for m in re.finditer(r'^(?:Theorem|Lemma|Corollary)\s+((C\d\d+)_\w+)', open(f).read(), re.M):
        names.setdefault(m.group(2), []).append(m.group(1))
props = [json.loads(l)["id"] for l in open('/verif/properties.jsonl')]
claims = []
for c in props:
    t = names.get(c, [])
    if not t: continue
    part = any(n.endswith('_refuted') or n.endswith('_partial') for n in t)
    claims.append(dict(property=c, status="partial" if part else "proved", theorems=t, note=NOTES.get(c, "")))
json.dump({"claims": claims}, open('/verif/MANIFEST.json', 'w'), indent=1)
print(len(claims), "claims; missing:", [c for c in props if c not in names], "unknown:", [c for c in names if c not in props])
