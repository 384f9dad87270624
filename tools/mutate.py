"""Mutation testing of the model.

usage: mutate.py FILE 'old text' 'new text' [--claim TEXT] [--log]
Copies theories/ to a scratch directory, applies the edit, rebuilds; every proof that no longer
checks is admitted in the scratch copy so that the build goes on.  Prints the property theorems
that are lost (directly, or through Print Assumptions).  A proof stopped by the limits of time
or memory counts as one that no longer checks; the log names it under stopped_by_limits.  The property files that need the fewest
files rebuilt come first; after the first that loses theorems it stops, unless --all is given.
"""
import argparse, json, os, re, shutil, subprocess, sys, tempfile
ROOT = os.environ.get("MUT_ROOT", "/verif/rocq/theories")   # a built copy of theories/
SPAN = re.compile(r"^[ \t]*(?:#\[[^\]]*\]\s*)?(?:Local |Global )?(?:Lemma|Theorem|Example|Corollary|Remark|Fact|Instance|Fixpoint|Definition)\s+([\w']+)", re.M)

def main():
    ap = argparse.ArgumentParser()
    ap.add_argument("file"); ap.add_argument("old"); ap.add_argument("new")
    ap.add_argument("--claim", default=""); ap.add_argument("--log", action="store_true")
    ap.add_argument("--defn", default=""); ap.add_argument("--nth", type=int, default=0)
    ap.add_argument("--tightened", default=""); ap.add_argument("--all", action="store_true")
    a = ap.parse_args()
    tmp = tempfile.mkdtemp(prefix="mut_", dir="/tmp")
    th = tmp + "/theories"
    shutil.copytree(ROOT, th)
    p = f"{th}/{a.file}"
    s = open(p).read()
    n = s.count(a.old)
    if n == 0:
        sys.exit("old text not found")
    if n > 1 and not a.nth:
        sys.exit(f"old text occurs {n} times; use --nth")
    if a.nth:
        i = -1
        for _ in range(a.nth): i = s.index(a.old, i + 1)
    else:
        i = s.index(a.old)
    defs = [m.group(1) for m in SPAN.finditer(s) if m.start() <= i]
    defn = a.defn or (defs[-1] if defs else "?")
    s = s[:i] + a.new + s[i + len(a.old):]
    open(p, "w").write(s)
    # dependency order and reverse closure
    files = [f for f in os.listdir(th) if f.endswith(".v")]
    out = subprocess.run(["coqdep", "-Q", "theories", "Verif", "-sort"] + ["theories/" + f for f in files],
                         cwd=tmp, capture_output=True, text=True).stdout
    order = [os.path.basename(x) for x in out.split()]
    deps = {}
    for f in order:
        d = subprocess.run(["coqdep", "-Q", "theories", "Verif", "theories/" + f], cwd=tmp, capture_output=True, text=True).stdout
        deps[f] = {os.path.basename(x)[:-1] for x in re.findall(r"theories/\w+\.vo\b", d)} - {f}
    dirty = {a.file}
    for f in order:
        if deps[f] & dirty: dirty.add(f)
    admitted, lost, ex, unfinished = [], [], [], []
    above = {}
    for f in order:
        above[f] = set().union({f}, *(above.get(d, set()) for d in deps[f])) & dirty
    todo, size = [], lambda f: sum(os.path.getsize(f"{th}/{g}") for g in above[f])
    for f in sorted((f for f in order if f in dirty and f.endswith("_Props.v")), key=size):
        todo += [g for g in order if g in above[f] and g not in todo]
    todo += [f for f in order if f in dirty and f not in todo]
    for f in todo:
        for ext in (".vo", ".vok", ".vos", ".glob"):
            q = f"{th}/{f[:-2]}{ext}"
            if os.path.exists(q): os.remove(q)
        while True:
            r = subprocess.run(["bash", "-c", 'ulimit -v 5000000; exec timeout 900 coqc -q -time -Q theories Verif "$0"',
                                "theories/" + f], cwd=tmp, capture_output=True, text=True)
            done = re.findall(r"(?m)^Chars \d+ - (\d+) ", r.stdout)
            r.stdout = re.sub(r"(?m)^Chars .*\n", "", r.stdout)
            if r.returncode == 0:
                break
            m = re.search(r'File "[^"]*", line (\d+), characters[^\n]*\nError', r.stderr)
            stuck = r.returncode == 124 or "Out of memory" in r.stderr or "Stack overflow" in r.stderr
            if not m and not (stuck and done):
                print("no error location", f, r.returncode, r.stderr[-500:]); sys.exit(2)
            s = open(f"{th}/{f}").read()
            # no location: the command after the last one that finished (offsets are in bytes)
            line = int(m.group(1)) if m else 1 + (lambda b, k: b[:k + len(b[k:]) - len(b[k:].lstrip())].count(b"\n"))(s.encode(), int(done[-1]))
            pos = sum(len(x) + 1 for x in s.split("\n")[:line - 1]) + 1
            st = [x for x in SPAN.finditer(s) if x.start() < pos + len(s.split("\n")[line - 1])]
            st = st[-1]
            pm = re.compile(r"\bProof\b[^.]*\.").search(s, st.start())
            qm = re.compile(r"\b(Qed|Defined)\.").search(s, st.start())
            if not pm or not qm or pm.start() > qm.start() or "Definition" in st.group(0).split() or "Fixpoint" in st.group(0).split():
                print("INVALID mutation:", f, line, r.stderr[-800:]); sys.exit(3)
            name = st.group(1)
            if pos > qm.end():
                print("error outside proof", f, line, r.stderr[-800:]); sys.exit(3)
            admitted.append(name)
            if stuck: unfinished.append(name)
            if "Example" in st.group(0).split(): ex.append(name)
            s = s[:pm.start()] + "Admitted." + "\n" * s[pm.start():qm.end()].count("\n") + s[qm.end():]
            open(f"{th}/{f}", "w").write(s)
        if f.endswith("_Props.v"):
            src = open(f"{th}/{f}").read()
            names = re.findall(r"Print Assumptions ([\w']+)\.", src)
            blocks = re.split(r"(?m)^(?=Closed under|Axioms:)", r.stdout)
            blocks = [b for b in blocks if b.startswith(("Closed", "Axioms"))]
            assert len(blocks) == len(names), (f, len(blocks), len(names))
            for nme, b in zip(names, blocks):
                if b.startswith("Axioms"):
                    ax = {w.split(".")[-1] for w in re.findall(r"(?m)^([\w'.]+)\s*:?", b)}
                    if ax & set(admitted): lost.append(nme)
            if lost and not a.all: break
    shutil.rmtree(tmp)
    print("definition:", defn); print("lost theorems:", sorted(set(lost))); print("broken lemmas:", admitted)
    if unfinished: print("stopped by the limits of time or memory:", unfinished)
    if a.log:
        rec = {"definition": f"{a.file}:{defn}", "edit": f"{a.old!r} -> {a.new!r}", "claim_broken": a.claim,
               "theorems_failed": sorted(set(lost)), "examples_failed": ex, "theorems_tightened": [t for t in a.tightened.split(",") if t]}
        if unfinished: rec["stopped_by_limits"] = unfinished
        open("/verif/seeded/LOG.jsonl", "a").write(json.dumps(rec, ensure_ascii=False) + "\n")
    if not lost: print("only examples:" if ex else "*** SURVIVED ***", ex or "")
main()
