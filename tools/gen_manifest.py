"""Regenerate MANIFEST.json from the theorem names in rocq/theories/Properties_*.v."""
import glob, json, os, re
root = os.path.dirname(os.path.dirname(os.path.abspath(__file__)))
notes = json.load(open(os.path.join(root, "tools", "notes.json")))
ids = [json.loads(l)["id"] for l in open(os.path.join(root, "properties.jsonl"))]
thms = {}
for f in sorted(glob.glob(os.path.join(root, "rocq", "theories", "Properties_*.v"))):
    for name in re.findall(r"^Theorem\s+(C\d+_\w+)", open(f).read(), re.M):
        thms.setdefault(name.split('_')[0], []).append(name)
claims = []
for i in ids:
    t = thms.get(i, [])
    n = notes.get(i, {})
    status = n.get("status") or ("proved" if t and not any(x.endswith("_partial") for x in t) else "partial")
    claims.append({"property": i, "status": status, "theorems": t,
                   "note": n.get("note", "" if t else "proof in progress")})
json.dump({"claims": claims}, open(os.path.join(root, "MANIFEST.json"), "w"), indent=1)
