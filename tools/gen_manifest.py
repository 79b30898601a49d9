"""Writes MANIFEST.json from the theorem names in rocq/theories/Props and the notes below."""
import json, re, glob, os
root = os.path.dirname(os.path.dirname(os.path.abspath(__file__)))
NOTES = json.load(open(os.path.join(root, "tools", "notes.json")))
thms = {}
for f in sorted(glob.glob(root + "/rocq/theories/Props/*.v")):
    for name in re.findall(r"^Theorem (C\d\d\w*)", open(f).read(), re.M):
        thms.setdefault(name.split("_")[0], []).append(name)
claims = []
for line in open(root + "/properties.jsonl"):
    pid = json.loads(line)["id"]
    names = thms.get(pid, [])
    if not names:
        continue
    weak = [n for n in names if n.endswith("_partial") or n.endswith("_refuted")]
    status = "partial" if weak else "proved"
    note = NOTES.get(pid, "")
    if weak and not note:
        print("no note for", pid)
    claims.append({"property": pid, "status": status, "theorems": names, "note": note})
json.dump({"claims": claims}, open(root + "/MANIFEST.json", "w"), indent=1)
print(len(claims), "claims,", sum(len(c["theorems"]) for c in claims), "theorems")
