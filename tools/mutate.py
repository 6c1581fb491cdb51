#!/usr/bin/env python3
"""Seeded-bug harness.  Usage: mutate.py JOBS.json
Each job: {"file","old","new","definition","edit","breaks"}.  For each job the built
tree is copied to a scratch directory, the edit is applied, and the project is rebuilt.
Every lemma whose proof no longer goes through is replaced by Admitted (in the scratch
copy only) and the build goes on, so that Print Assumptions in Props/*.v tells which
property theorems depended on a lemma that broke.  Prints one JSON line per job.
With FAST=1 the dependents of a broken lemma are read off the .glob files of the unedited
tree, and the rebuilding stops as soon as a theorem of a property named in "breaks" is
among them; "theorems_failed" then lists those found so far.  Files further down are not
rebuilt, so this is quick."""
import json, os, re, shutil, subprocess, sys
SRC = os.environ.get("MUT_SRC", "/verif/rocq"); TMP = os.environ.get("MUT_TMP", "/tmp/mut")
START = re.compile(r"^\s*(?:Local |Global |#\[[^]]*\] *)*(Theorem|Lemma|Corollary|Example|Fact|Remark|Instance|Definition|Fixpoint)\s+([\w']+)")
def sh(c, t=3000):
    p = subprocess.run(c, shell=True, stdout=subprocess.PIPE, stderr=subprocess.STDOUT, text=True, timeout=t)
    return p.returncode, p.stdout
def admit(path, line):
    L = open(path).read().split("\n")
    i = line - 1
    s = i
    while s >= 0 and not START.match(L[s]): s -= 1
    if s < 0: return None
    kind, name = START.match(L[s]).groups()
    # proof start
    p = s
    while p < len(L) and not re.search(r"\bProof\b", L[p]): p += 1
    q = p
    while q < len(L) and not re.search(r"\b(Qed|Defined)\.", L[q]): q += 1
    if q >= len(L) or p > line + 0 and i < p: return (name, False)
    head = L[p][:L[p].index("Proof")]
    tail = re.split(r"\b(?:Qed|Defined)\.", L[q], 1)[1]
    L[p:q+1] = [head + "Admitted." + tail] + [""]*(q-p)
    open(path, "w").write("\n".join(L))
    return (name, True)
DEFS = re.compile(r"^(prf|def|inst|thm|coe|ex|scheme|ind|rec) (\d+):(\d+) (\S+) (\S+)")
REFS = re.compile(r"^R(\d+):(\d+) Verif\.(\S+) (\S+) (\S+) (\w+)")
def graph():
    """lemma -> the lemmas and theorems whose text or proof mentions it"""
    up = {}
    for d, _, fs in os.walk(f"{SRC}/theories"):
        for f in fs:
            if not f.endswith(".glob"): continue
            defs, refs = [], []
            lib = os.path.relpath(os.path.join(d, f), f"{SRC}/theories")[:-5].replace("/", ".")
            for l in open(os.path.join(d, f)):
                m = DEFS.match(l)
                if m: defs.append((int(m.group(2)), m.group(5)))
                m = REFS.match(l)
                if m and m.group(6) != "lib": refs.append((int(m.group(1)), (m.group(3), m.group(5))))
            defs.sort()
            i = 0
            # lemmas mentioned in an Ltac definition count for every lemma of the file that uses the tactic
            text = open(os.path.join(d, f)[:-5] + ".v", "rb").read()
            for m in re.finditer(rb"^Ltac (\w+)[^\n]*:=(?:.|\n)*?\.\s*\n", text, re.M):
                used = [x for k, (p, x) in enumerate(defs) if re.search(rb"\b%s\b" % m.group(1), text[max(p, m.end()):(defs[k+1][0] if k + 1 < len(defs) else len(text))])]
                for pos, n in refs:
                    if m.start() <= pos < m.end():
                        for x in used: up.setdefault(n, set()).add((lib, x))
            for pos, n in sorted(refs):
                while i + 1 < len(defs) and defs[i+1][0] <= pos: i += 1
                if defs and defs[i][0] <= pos: up.setdefault(n, set()).add((lib, defs[i][1]))
    return up
FAST = os.environ.get("FAST"); UP = graph() if FAST else {}
def dependents(names):
    seen, todo = set(names), list(names)
    while todo:
        for y in UP.get(todo.pop(), ()):
            if y not in seen: seen.add(y); todo.append(y)
    return sorted(x for _, x in seen if re.match(r"C\d\d", x))
def run(job):
    shutil.rmtree(TMP, ignore_errors=True)
    sh(f"cp -a {SRC} {TMP}")
    f = f"{TMP}/theories/{job['file']}"
    t = open(f).read()
    assert t.count(job["old"]) == job.get("count", 1), (job["definition"], t.count(job["old"]))
    open(f, "w").write(t.replace(job["old"], job["new"]))
    broke, hard, at = [], [], []
    props_out = ""
    for _ in range(60):
        rc, out = sh(f"cd {TMP} && ulimit -t 1200 && coq_makefile -f _CoqProject -o Makefile >/dev/null && make -j2 {'' if FAST else '-k'} 2>&1")
        errs = [(m.group(1), int(m.group(2))) for m in re.finditer(r'File "(?:\./)?(theories/[^"]+)", line (\d+), characters[^\n]*\n(?:Error|[^\n]*\n?Error)', out)]
        if not errs: break
        done = False
        for pth, ln in dict(errs).items():
            r = admit(f"{TMP}/{pth}", ln)
            if r is None: hard.append(f"{pth}:{ln}"); continue
            if r[1]: broke.append(r[0]); at.append((pth[9:-2].replace("/", "."), r[0])); done = True
            else: hard.append(r[0])
        if not done: break
        if FAST:
            ids = re.findall(r"C\d\d+", job["breaks"])
            if ids and any(re.match("%s(?!\\d)" % i, x) for i in ids for x in dependents(at)): break
    deps = dependents(at) if FAST else []
    if broke and not hard and not FAST:
        for pf in sorted(os.listdir(f"{TMP}/theories/Props")):
            if not pf.endswith(".v"): continue
            rc, out = sh(f"cd {TMP} && coqc -Q theories Verif theories/Props/{pf}")
            names = re.findall(r"Print Assumptions (\w+)\.", open(f"{TMP}/theories/Props/{pf}").read())
            blocks = re.findall(r"(Closed under the global context|Axioms:\n(?:(?!Closed|Axioms:).*\n?)*)", out)
            for n, b in zip(names, blocks):
                if b.startswith("Axioms") and any(re.search(r"\b%s\b" % re.escape(x), b) for x in broke): deps.append(n)
    res = {"definition": job["definition"], "edit": job["edit"], "claim_broken": job["breaks"],
           "theorems_failed": sorted(set(deps + [b for b in broke if re.match(r"C\d\d", b)])), "first_broken_lemmas": broke[:8],
           "theorems_tightened": job.get("tightened", [])}
    if hard: res["statement_errors"] = hard
    return res
for job in json.load(open(sys.argv[1])):
    try: r = run(job)
    except Exception as e: r = {"definition": job["definition"], "edit": job["edit"], "harness_error": repr(e)}
    print(json.dumps(r), flush=True)
