"""Lists the lines of /repo/subsetter that no comment of the model cites."""
import re, glob, os
cited = {}
for f in glob.glob('/verif/rocq/theories/Model/*.v'):
    s = open(f).read()
    for m in re.finditer(r'(\w+\.py):([0-9][0-9, -]*)', s):
        for part in m.group(2).split(','):
            q = part.strip().split('-')
            try:
                a = int(q[0]); b = int(q[-1])
            except ValueError:
                continue
            cited.setdefault(m.group(1), set()).update(range(a, b + 1))
for f in sorted(glob.glob('/repo/subsetter/*.py')):
    n = os.path.basename(f)
    c = cited.get(n, set())
    lines = open(f).read().split('\n')
    out = [i for i, l in enumerate(lines, 1) if l.strip() and i not in c]
    spans = []
    for i in out:
        if spans and i - spans[-1][1] <= 2:
            spans[-1][1] = i
        else:
            spans.append([i, i])
    print(n, len(lines), 'lines,', len(out), 'not cited:', ' '.join(f'{a}-{b}' if a != b else str(a) for a, b in spans))
