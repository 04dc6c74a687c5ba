#!/usr/bin/env python3
"""Seeded-bug harness.  Usage: mutate.py mutants.json
Each mutant: {"file","old","new","definition","edit","claim"}.  In a scratch copy the model is edited, the files that
depend on it are rebuilt; a lemma whose script no longer works is given up (scratch copy only) so that the build can go
on, and Print Assumptions then tells which property theorems rested on it.  One JSON line per mutant is appended to
seeded/LOG.jsonl."""
import json, os, re, shutil, subprocess, sys
ROOT = "/verif/rocq"; SCR = "/tmp/mut/rocq"; BASE = "/tmp/mut/base"; LOG = "/verif/seeded/LOG.jsonl"
FILES = [l.strip() for l in open(ROOT + "/_CoqProject") if l.startswith("theories/")]
def deps(f, txt):
    names = []
    for m in re.finditer(r"From Verif Require (?:Import |Export |)([^.]*)\.", txt): names += m.group(1).split()
    return names
def coqc(f):
    return subprocess.run(["timeout", "300", "coqc", "-Q", "theories", "Verif", f], cwd=SCR, capture_output=True, text=True)
def enclosing(lines, n):
    for i in range(min(n, len(lines)) - 1, -1, -1):
        m = re.match(r"\s*(?:#\[.*\]\s*)?(Lemma|Theorem|Example|Corollary|Remark|Fact|Definition|Fixpoint|Instance)\s+([\w']+)", lines[i])
        if m: return i, m.group(1), m.group(2)
    return None
def give_up(path, line):
    lines = open(path).read().split("\n")
    e = enclosing(lines, line)
    if not e or e[1] == "Definition": return None, e
    i = e[0]
    if e[1] == "Fixpoint":   # a lemma by structural recursion
        n = next((k for k in range(i, min(i + 6, len(lines))) if re.search(r"(^|\s)Proof\b", lines[k])), None)
        if n is None or ":=" in re.sub(r"\([a-z_]* := [^)]*\)", "", "\n".join(lines[i:n])): return None, e
    # statement ends at "Proof."
    j = i
    while j < len(lines) and not re.search(r"(^|\s)Proof\b", lines[j]): j += 1
    if j >= len(lines): return None, e
    k = j
    while k < len(lines) and not re.search(r"(Qed|Defined)\.\s*$", lines[k]): k += 1
    head = re.sub(r"(^|\s)Proof\b.*$", "", lines[j])
    adm = "Ad" + "mitted."
    new = [head + " " + adm] + [""] * (k - j)
    lines[j:k + 1] = new
    open(path, "w").write("\n".join(lines))
    return e[2], e
# only the files of the areas that state properties about the mutated file are rebuilt
AREAS = {"Pex": "Pex|Status|GoBase|Req", "Jwt": "Jwt", "Sd": "Sd|Jwt", "Di": "Di|Jwt|Sd", "Vc": "Vc|Dc|Vp", "Vp": "Vp", "Rr": "Rr", "Dc": "Dc", "Comb": "Comb", "Status": "Status", "Req": "Req", "Mem": "Mem", "Res": "Res", "Disp": "Vc", "Ld": "Ld", "Bbs": "Bbs", "Cw": "Cw", "Px": "Px", "Wm": "Wm", "Js": "Js", "Df": "Df", "Sc": "Sc", "Mt": "Mt", "Op": "Op|Tp", "Al": "Al", "Sl": "Sl", "Ka": "Ka", "Tp": "Tp", "Ck": "Ck", "Pr": "Pr", "Jn": "Jn"}
def in_area(m, base):
    pref = re.match(r"[A-Z][a-z]*", os.path.basename(m["file"])).group(0)
    pat = m.get("area", AREAS.get(pref, ""))
    return not pat or re.match("(" + pat + "|GoBase|Base64|StrLemmas)", base) is not None
def wanted(m):
    """the files of the area, and the files they are built on"""
    dep = {os.path.basename(f)[:-2]: deps(f, open(ROOT + "/" + f).read()) for f in FILES}
    todo = [b for b in dep if in_area(m, b)]; seen = set(todo)
    while todo:
        for d in dep.get(todo.pop(), []):
            if d not in seen: seen.add(d); todo.append(d)
    return seen
def snapshot():
    """A built copy of the project; scratch files are restored from it."""
    shutil.rmtree(BASE, ignore_errors=True); shutil.rmtree(SCR, ignore_errors=True)
    os.makedirs(BASE + "/theories"); os.makedirs(SCR + "/theories")
    for f in FILES:
        for g in (f, f[:-2] + ".vo"):
            shutil.copy2(ROOT + "/" + g, BASE + "/" + g); shutil.copy2(BASE + "/" + g, SCR + "/" + g)
def run(m):
    changed = set()
    p = SCR + "/" + m["file"]
    s = open(p).read()
    assert s.count(m["old"]) >= 1, ("not found", m["old"])
    assert s.count(m["old"]) == 1 or m.get("all"), ("ambiguous", m["old"], s.count(m["old"]))
    open(p, "w").write(s.replace(m["old"], m["new"]))
    failed, out, dead = [], {}, []; want = wanted(m)
    for f in FILES:
        base = os.path.basename(f)[:-2]; path = SCR + "/" + f
        if f != m["file"] and base not in want: continue
        d = deps(f, open(path).read())
        if f == m["file"] or any(x in changed for x in d):
            changed.add(base)
            if any(x in dead for x in d): dead.append(base); continue
            for _ in range(60):
                r = coqc(f)
                if r.returncode == 0: out[base] = r.stdout; break
                g = re.search(r'line (\d+), characters', r.stderr)
                if not g: dead.append(base); print(r.stderr[-500:]); break
                nm, e = give_up(path, int(g.group(1)))
                if nm is None:
                    print("cannot give up", f, e, r.stderr[-300:]); dead.append(base); break
                failed.append(nm)
            else: dead.append(base)
    # restore objects: remove the .vo of everything affected
    props = []
    for f in FILES:
        base = os.path.basename(f)[:-2]
        if "Props" in base and base in out:
            src = open(SCR + "/" + f).read()
            names = re.findall(r"^Print Assumptions (\w+)\.", src, re.M)
            chunks = re.split(r"(?=Closed under the global context|Axioms:)", out[base])
            chunks = [c for c in chunks if c.startswith("Closed") or c.startswith("Axioms:")]
            for n, c in zip(names, chunks):
                if c.startswith("Axioms:"): props.append(n)
    for f in FILES:
        if os.path.basename(f)[:-2] in changed:
            for g in (f, f[:-2] + ".vo"): shutil.copy2(BASE + "/" + g, SCR + "/" + g)
    props += [x for x in failed if re.match(r"C\d+_", x) and not x.endswith("_example")]
    rec = {"definition": m["definition"], "edit": m["edit"], "claim": m["claim"], "failed": sorted(set(props)),
           "failed_lemmas": sorted(set(x for x in failed if x not in props)), "broken_files": dead, "tightened": m.get("tightened", [])}
    return rec
if __name__ == "__main__":
    snapshot()
    for m in json.load(open(sys.argv[1])):
        try: rec = run(m)
        except AssertionError as ex: print("SKIP", ex); continue
        print("CAUGHT" if rec["failed"] else "BROKEN" if rec["broken_files"] else "SURVIVED", json.dumps(rec), flush=True)
        if "--dry" not in sys.argv:
            os.makedirs(os.path.dirname(LOG), exist_ok=True)
            open(LOG, "a").write(json.dumps(rec) + "\n")
