"""Write MANIFEST.json from the theorems of Properties*.v and the notes below.

Every theorem CNN_name in a Properties file belongs to the property CNN.  A
property is partial if one of its theorems is suffixed _partial or _refuted.
"""

import glob, json, os, re

root = os.path.dirname(os.path.dirname(os.path.abspath(__file__)))

notes = json.load(open(os.path.join(root, "tools", "notes.json")))
properties = [json.loads(line)["id"] for line in open(os.path.join(root, "properties.jsonl"))]
theorems = {name: [] for name in properties}
for path in sorted(glob.glob(os.path.join(root, "rocq", "theories", "Properties*.v"))):
    for name in re.findall(r"^Theorem (C\d+\w*)", open(path).read(), re.M):
        theorems[name.split("_")[0]].append(name)

claims = []
for name in properties:
    assert theorems[name], name
    partial = any(theorem.endswith(("_partial", "_refuted")) for theorem in theorems[name])
    assert not partial or name in notes, name
    claims.append({
        "property": name,
        "status": "partial" if partial else "proved",
        "theorems": theorems[name],
        "note": notes.get(name, "Proved for all inputs.")})

with open(os.path.join(root, "MANIFEST.json"), "w") as file:
    json.dump({"claims": claims}, file, indent=2)
    file.write("\n")
