"""Lists definitions of the model whose preceding comment does not cite a file and lines."""
import re, glob, os, sys
for f in sorted(glob.glob('/verif/rocq/theories/Model/*.v')):
    s = open(f).read()
    bad = []
    last = ''
    for m in re.finditer(r'\(\*.*?\*\)|^\s*(?:Definition|Fixpoint|Inductive|Record|with|Variable)\s+(\w+)', s, re.S | re.M):
        if m.group(1):
            # comment must immediately precede, or be the last comment (group of definitions)
            between = s[last_end:m.start()] if last else s[:m.start()]
            if not re.search(r'\.py:\d', last) or between.count('\n') > 8:
                bad.append(m.group(1))
        else:
            last = m.group(0); last_end = m.end()
    print(os.path.basename(f), len(bad), ' '.join(bad))
