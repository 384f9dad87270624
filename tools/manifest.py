"""Regenerate MANIFEST.json from the theorem names in theories/*_Props.v and the notes below."""
import glob, json, os, re
here = os.path.dirname(os.path.abspath(__file__))
root = os.path.dirname(here)
NOTES = json.load(open(os.path.join(here, "notes.json")))
thms = {}
for f in sorted(glob.glob(root + "/rocq/theories/*_Props.v")):
    for m in re.finditer(r"^ *(?:Theorem|Lemma|Corollary)\s+((C\d+)_\w+)", open(f).read(), re.M):
        thms.setdefault(m.group(2), []).append(m.group(1))
claims = []
for line in open(root + "/properties.jsonl"):
    pid = json.loads(line)["id"]
    n = NOTES.get(pid, {})
    ts = thms.get(pid, [])
    if not ts and not n:
        continue
    partial = any(t.endswith(("_refuted", "_partial")) for t in ts)
    status = n.get("status") or ("partial" if partial else "proved")
    claims.append({"property": pid, "status": status, "theorems": ts, "note": n.get("note", "")})
json.dump({"claims": claims}, open(root + "/MANIFEST.json", "w"), indent=1, ensure_ascii=False)
print(len(claims), "claims", sum(c["status"] == "proved" for c in claims), "proved")
