"""Regenerate the per-property table of DESIGN.md (between the two markers) from MANIFEST.json,
properties.jsonl and the HOW dictionary below."""
import json
HOW = {
"C01": "every function of the model reads a datetime only through its UTC instant; any `Num` (GenProofs.v), numpy clock for whole-minute offsets",
"C02": "unfolding for any `Num`; exceptions included",
"C03": "the loop is unrolled against the IERS dates; months lifted from a sweep over the table's years",
"C04": "same loop, warnings are part of the result",
"C05": "index arithmetic of the lookup for all years, sweep over table rows",
"C06": "witness dates; exact formula of the entry returned",
"C07": "rational sweep over all 495 table months against the leap-second history",
"C08": "exact real evaluation, Meeus' calendar formula as specification (SpecTime.v)",
"C09": "difference of two evaluations, monotone leap-second count",
"C10": "witness at a month boundary; monotone inside a month and 0.11 s apart",
"C11": "case analysis of the decorator on all entry points; witness for the undecorated one",
"C12": "decorator model over abstract functions and argument lists (TzCheck.v)",
"C13": "vectors on the sphere (SpecGeom.v), atan2/asin in Trig.v",
"C14": "range of `%` over the reals", "C15": "asin range, refraction sign",
"C16": "calculus and `interval` on the refraction formula; witnesses near the zenith",
"C17": "roots of the tangent argument by the intermediate value theorem",
"C18": "hour angle modulo a turn, periodicity of sin and cos",
"C19": "rotation matrix specification", "C20": "meridian ellipse specification",
"C21": "termwise bound of the series, amplitudes added up in Coq",
"C22": "no denominator vanishes, no asin argument leaves [-1,1]",
"C23": "fold equals the mathematical double sum", "C24": "fold equals the tabulated sum, amplitude bound",
"C25": "exact value, advance over one sidereal day",
"C26": "cos of 23.4 (radians) against cosd; witness, error bound",
"C27": "monotonicity of the code's formula, error bound", "C28": "witness, error bound",
"C29": "dot product of unit vectors", "C30": "elementary", "C31": "sphere vectors", "C32": "sine bounds, `interval`",
"C33": "exp overflow threshold as in CPython", "C34": "monotone functions, Masters' formulas (SpecEng.v)",
"C35": "acos range", "C36": "sunrise equation", "C37": "acos domain, both back ends", "C38": "dependence on the local date only",
"C39": "bounds of equation of time and offset", "C40": "induction on the generator", "C41": "witness step, coverage by induction",
"C42": "map of the position functions, index bounds", "C43": "longitude with azimuth 359.5..360 by continuity",
"C44": "ODE of the barometric law, derivative", "C45": "values and bounds", "C46": "two temperatures, same value", "C47": "sin of whole turns",
"C48": "state machine of numeric.py over all switch sequences", "C49": "Z arithmetic on datetime64",
"C50": "cache threaded through, any `Num`", "C51": "unbound names and wrong arity are modelled as exceptions",
"C52": "monotone rational functions", "C53": "evaluation at 90 degrees", "C54": "relational parametricity (Rel.v) between scalar and array instances",
"C55": "composition, any input", "C56": "perturbation bounds for the three known slips", "C57": "relational parametricity between MathR and NumpyR",
"C58": "as C32", "C59": "exact values", "C60": "exact values", "C61": "exact values, witnesses by continuity in the longitude", "C62": "exact values",
"C63": "rational function bounds", "C64": "exact values", "C65": "exact values", "C66": "signatures of all stubs generated from the text (Sigs.v), binding of argument lists",
"C67": "induction over entry lists, the committed table recomputed", "C68": "binding of argument lists (Call.v)",
"C69": "Flocq: monotone rounding, exact fmod; pi64*rad_to_deg rounds to 180", "C70": "Flocq, exact fmod; witness by computation",
"C71": "the witness is evaluated with Flocq and `interval` at 140 bits", "C72": "as C71", "C73": "as C71",
"C74": "error of each of the six roundings", "C75": "C74 and C09; witness by computation",
"C76": "the model run on abstract numbers (range, magnitude, error bound; Absint.v), by computation in Coq; soundness by parametricity (Rel.v, AbsintSound.v, B64Lift.v)",
"C77": "as C76, then atan2 of nearby points (B64Lift.v)", "C78": "as C76, then spherical triangle inequality, Hoelder bound of asin, Lipschitz bound of refraction (AngleLip.v, B64Refr.v)",
"C80": "the longitude series split into mean longitude, equation of the centre and a bounded rest; interval arithmetic over the day of year, and Lipschitz bounds for the calendar phase, against the engineering formulas",
"C81": "C80, spherical triangle inequality, bound on refraction",
"C82": "C80 and C31 in the horizontal frame",
"C83": "C36 for the instant; the method of C80 for the Fourier series of util.py, at any instant of the local day in any zone; spherical triangle inequality",
"C86": "the topocentric direction against the geocentric one, which is the same for all places", "C87": "as C86, then the spherical triangle inequality",
"C88": "Lipschitz constants of the series summed term by term (MotionProofs.v), mean value theorem for the reduction to the equator, the tables' range for their steps",
"C89": "bound on the obliquity, sign of cos lat cos dec", "C90": "C88 from the start of the day", "C91": "C90 at hour angles 0 and 180, C89",
"C84": "as C83, then the east component of the direction", "C85": "as C83",
"C92": "as C76, then the Hoelder and Lipschitz bounds of asin", "C93": "as C92; tan lat by hand; a wrong choice of half circle is possible only where both halves nearly agree",
"C94": "relative error of every operation; Jordan's inequality for sin; exp by the mean value theorem", "C95": "mean value theorem; t^2 exp(-t) is bounded",
"C96": "as C92; timedelta(hours=x) in binary64 by hand; Hoelder and Lipschitz bounds of acos",
"C97": "parametricity (Rel) from `B64 L` to `Np64 L` and `Arr64 I L`; totality of arrays by the always-true relation", "C98": "the path through 1/-0.0 evaluated; otherwise parametricity with the sine known not to be zero",
"C99": "sine of the sun's longitude over the year by interval arithmetic, from C80's expansion; C89 for the altitudes", "C100": "the horizontal coordinates of C13 with the sign of the sine of the hour angle; C85 and C89 at the transit",
"C101": "C78, C94 and C95 composed; refraction bounded by interval arithmetic", "C102": "argument of acos by the abstract arithmetic of `Absint`, then Hoelder and Lipschitz bounds of arcsine", "C103": "base and exponent by the abstract arithmetic of `Absint`, then relative error of exp and ln",
"C107": "derivative bounds of the series and of the reduction to the equator, without steps inside a month (MotionLip.v)", "C108": "C91 for both ends, C107 and the discrete intermediate value theorem over microseconds", "C109": "C108 at -0.57 degrees, the refraction there by interval arithmetic, C33; for the partial, C33 and C34",
"C110": "induction over the loop of Demo.v; C109", "C111": "interval arithmetic for the integer parts, C103 for double precision",
"C112": "C108 at level -0.57, the error bound of C78, and the exponent's error bound: above 715 the nearest double of exp is infinite",
"C116": "C69, C77, C78 and C101; no other operation raises IndexError; error bound of 380 sin",
"C117": "each test is run by vm_compute in an interval calculator (an instance of Num) related to B64 by the parametricity of Rel.v",
"C118": "mean value theorem on the cotangent of the refraction formula, slope bounded by interval arithmetic; C78 for doubles",
"C119": "C107 (motion within a month), a lower bound of the cosine's growth across the east, C118",
"C120": "monotonicity of the sunrise equation in latitude and declination, mean value theorem on the Fourier declination, interval arithmetic; C96 for doubles",
"C121": "C85 (accuracy of the transit) and C107 (motion within a day): the turning of the sky outweighs the change of declination; C118 for altitudes",
"C122": "C119 and monotonicity of the beam in the altitude",
"C123": "C96 (error of the times), C83 to C85 and C121 at a reading 1.5 microseconds off, C76 and C77 for the doubles",
"C124": "`SpecErr` names the three exceptions and an arithmetic raising no others; `ErrProofs` goes through the functions, with the table lookups from C03 and C05; binary64 and numpy scalars are such arithmetics for every library.",
"C125": "`ArrRad64`: element i of the array computation is the scalar one (`Rel`, C97), the air mass apart, whose sine is shown not to be zero; then C92, C94 and C95.",
"C126": "`SpecNear` says what near is; `B64Util` runs the formulas on the abstract arithmetic (`Absint`) from the exact inputs or from the altitude of C78; where the sign of the sine of the altitude may differ both branches are small; the exponential is bounded by hand. `B64Clear` adds global_irradiance_clear, where the two runs refract for temperatures that differ by the rounding of 288.15.",
"C127": "`B64Rest` runs the rational functions on the abstract arithmetic, piece by piece of the argument ranges and with the squares as arguments of their own (the abstract arithmetic does not know that they are not negative), and compares with the values of C64 (`RestMore`). The aerosol transmittances add an exponential, bounded by hand. `B64RestPow` adds the functions with a real power: the optical depth, the forward scatterance and the low-band correction factor. The optical masses are left out.",
"C113": "floor arithmetic; one computation in binary64", "C114": "case split on the reduction modulo 360; C100 for the witness", "C115": "the regular expression of strptime as a list of matches; induction over the log",
"C104": "a lexer and grammar of Python's literals (SpecPyText), induction over lines, digits and rows; uniqueness by a parser complete for the grammar", "C105": "as C104, with the rounding of `%.4f`; `nan` is the counterexample", "C106": "the lexer run on the copied text; the script's output for the table's entries compared with it",
"C79": "C56, C76 and the spherical triangle inequality",
}
m = {c['property']: c for c in json.load(open('/verif/MANIFEST.json'))['claims']}
rows = ['| id | property | status | modelled and proved by |', '|---|---|---|---|']
for l in open('/verif/properties.jsonl'):
    p = json.loads(l); c = m.get(p['id'])
    st = c['status'] if c else 'not yet'
    if c and any(t.endswith('_refuted') for t in c['theorems']): st = 'false; part proved'
    rows.append('| %s | %s | %s | %s |' % (p['id'], p['title'], st, HOW.get(p['id'], '')))
t = open('/verif/DESIGN.md').read()
a, b = '<!-- table -->\n', '<!-- end of table -->'
i, j = t.index(a) + len(a), t.index(b)
open('/verif/DESIGN.md', 'w').write(t[:i] + '\n'.join(rows) + '\n' + t[j:])
print(len(rows) - 2, [p for p in m if p not in HOW])
