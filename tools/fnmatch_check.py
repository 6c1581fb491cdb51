"""Compares Model/Fnmatch.v with the standard library's fnmatch on random patterns and names.
Usage: fnmatch_check.py SEED COUNT > t.v; coqc -Q theories Verif t.v"""
import fnmatch, random, sys, warnings
warnings.simplefilter("ignore")
random.seed(int(sys.argv[1])); N = int(sys.argv[2])
A = "*?[]]!!--abz^.\\&|"
def q(s): return '"' + s.replace('"', '""') + '"'
out = []; yes = 0
while len(out) < N:
    p = "".join(random.choice(A) for _ in range(random.randint(0, 9)))
    if random.random() < .5: p = "[" + p + "]" + random.choice(["", "*", "a"])
    s = "".join(random.choice("ab!-]z[^*.\\&|") for _ in range(random.randint(0, 3)))
    r = fnmatch.fnmatch(s, p); yes += r
    if not r and random.random() < .6: continue
    out.append("(%s, %s, %s)" % (q(s), q(p), "true" if r else "false"))
print(yes, file=sys.stderr)
print("From Verif Require Import Model.Base Model.Fnmatch.\nOpen Scope string_scope. Open Scope list_scope.\nDefinition tests : list (string * string * bool) := [")
print(";\n".join(out))
print("].\nDefinition bad := filter (fun t => negb (Bool.eqb (fnmatch (fst (fst t)) (snd (fst t))) (snd t))) tests.\nEval vm_compute in (length tests, firstn 5 bad, length bad).")
