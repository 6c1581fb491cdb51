"""Compares Model/PyCompare.v with Python's operators, as filters.py:563-587 uses them, on random values.
Usage: compare_check.py SEED COUNT > t.v; coqc -Q theories Verif t.v"""
import datetime, random, sys
from fractions import Fraction
from fnmatch import fnmatch
random.seed(int(sys.argv[1])); N = int(sys.argv[2])
def text(): return "".join(random.choice("abAB*?[") for _ in range(random.randint(0, 3)))
def scalar(): return random.choice([None, random.randint(-2, 3), random.randint(-4, 6) / 2, text(), text()])
def column(): return random.choice([scalar(), scalar(), random.random() < .5, datetime.datetime(2020, 1, 1)])
def coq(v):
    if v is None: return "VNull"
    if v is True: return "VBool true"
    if v is False: return "VBool false"
    if isinstance(v, int): return "VInt (%d)" % v
    if isinstance(v, float): f = Fraction(v); return "VFloat ((%d) # %d)" % (f.numerator, f.denominator)
    if isinstance(v, str): return 'VStr "%s"' % v
    return "VDate 1 None"
def match(op, value, w):
    if op == "MIs": return value is w
    if op == "MIsNot": return value is not w
    if op == "MIn": return value in w
    if op == "MNotIn": return value not in w
    if op == "MEq": return value == w
    if op == "MNe": return value != w
    if op == "MLt": return value < w
    if op == "MGt": return value > w
    if op == "MLe": return value <= w
    if op == "MGe": return value >= w
    return fnmatch(value, w)
out = []
while len(out) < N:
    op = random.choice("MIs MIsNot MIn MNotIn MEq MNe MLt MGt MLe MGe MMatches".split())
    x, w = column(), random.choice([scalar(), scalar(), [scalar() for _ in range(random.randint(0, 3))]])
    if op in ("MIs", "MIsNot"): w = None
    try: r = "Ok true" if match(op, x, w) else "Ok false"
    except TypeError: r = "Err FxTypeError"
    m = "MvList [%s]" % "; ".join(map(coq, w)) if isinstance(w, list) else "MvOne (%s)" % coq(w)
    out.append("(mkCond %s (%s) (SfNull []), %s, %s)" % (op, m, coq(x), r))
print("From Verif Require Import Model.Base Model.Value Model.Filters Model.PyCompare.\nOpen Scope string_scope. Open Scope list_scope.")
print("Definition tests : list (mcond * value * res filter_exn bool) := [")
print(";\n".join(out))
print("""].
Definition same (a b : res filter_exn bool) : bool := match a, b with Ok x, Ok y => Bool.eqb x y | Err FxTypeError, Err FxTypeError => true | _, _ => false end.
Definition bad := filter (fun t => negb (same (match_condition (fun _ _ => false) (fun _ _ => false) (fun _ _ => Err FxTypeError) (fst (fst t)) (snd (fst t))) (snd t))) tests.
Eval vm_compute in (length tests, firstn 5 bad, length bad).""")
