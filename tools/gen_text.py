"""Generate rocq/theories/TableText.v: the text of the Delta-T table in solartime.py, copied."""
L = open('/repo/pysolar/solartime.py').read().split('\n')
i = [k for k, l in enumerate(L) if 'table of values to add to UT1' in l][0]
j = [k for k, l in enumerate(L) if l.strip() == '] # delta_t'][0]
body = '\n'.join(L[i:j + 1]) + '\n'
assert '"' not in body
open('/verif/rocq/theories/TableText.v', 'w').write('''(* GENERATED by tools/gen_text.py: pysolar/solartime.py, lines %d-%d, copied character by character *)
From Coq Require Import String.
Local Open Scope string_scope.
Definition table_source : string :=
"%s".
''' % (i + 1, j + 1, body))
