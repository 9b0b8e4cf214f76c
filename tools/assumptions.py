"""Recompile rocq/theories/Prop*.v and write ASSUMPTIONS.md: for each property theorem, what
Print Assumptions lists.  Run after a build.  With names of files, recompile only these and keep the
other rows."""
import glob, os, re, subprocess, sys
PRIM = re.compile(r'^(PrimFloat|PrimInt63|Uint63|FloatAxioms|FloatOps|Leibniz)\.')
rows, old, oldp = [], {}, []
if sys.argv[1:]:
    t = open('/verif/ASSUMPTIONS.md').read()
    oldp = [x for x in t.strip().split('\n')[-1].split(', ') if PRIM.match(x)]
    for n, a in re.findall(r'^\| (C\w+) \| (.*) \|$', t, re.M):
        old[n] = [x for x in a.split(', ') if x not in ('none', 'primitive floats/ints')] + (oldp if 'primitive' in a else [])
for f in sorted(glob.glob('/verif/rocq/theories/Prop*.v')):
    src = open(f).read()
    order = re.findall(r'^Print Assumptions (\w+)\.', src, re.M)
    if sys.argv[1:] and os.path.basename(f) not in sys.argv[1:]:
        rows += [(n, old[n]) for n in order]; continue
    out = subprocess.run(['coqc', '-Q', 'theories', 'Verif', '-o', '/tmp/' + os.path.basename(f) + 'o', f], cwd='/verif/rocq',
                         capture_output=True, text=True).stdout
    blocks, cur = [], None
    for line in out.split('\n'):
        if line.startswith('Closed under the global context'): blocks.append([]); cur = None
        elif line.startswith('Axioms:'): cur = []; blocks.append(cur)
        elif cur is not None:
            m = re.match(r"^([A-Za-z_][\w.']*)(?: :|$)", line)
            if m: cur.append(m.group(1))
    assert len(blocks) == len(order), (f, len(blocks), len(order))
    rows += list(zip(order, blocks))
rows.sort(key=lambda r: r[0][:3])
with open('/verif/ASSUMPTIONS.md', 'w') as o:
    o.write('# Print Assumptions of every property theorem\n\nGenerated by tools/assumptions.py.  "primitive floats/ints" stands for constants and axioms of\n'
            "Coq's Floats and Int63 libraries (PrimFloat, FloatAxioms, PrimInt63, Uint63), which the `interval` tactic computes with.\n\n| theorem | axioms |\n|---|---|\n")
    allp = set()
    for t, b in rows:
        p = [x for x in b if PRIM.match(x)]; allp |= set(p)
        r = sorted(x for x in b if not PRIM.match(x))
        o.write('| %s | %s |\n' % (t, ', '.join(r + (['primitive floats/ints'] if p else [])) or 'none'))
    o.write('\nThe primitive float and integer constants and axioms that occur:\n\n' + ', '.join(sorted(allp)) + '\n')
print(len(rows), sorted({x for _, b in rows for x in b if not PRIM.match(x)}))
