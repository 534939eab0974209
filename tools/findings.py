#!/usr/bin/env python3
"""Write the list of refuted properties at the end of DESIGN.md from MANIFEST.json and properties.jsonl."""
import json
HEAD = "## Refuted properties"
titles = {}
for l in open("/verif/properties.jsonl"):
    p = json.loads(l)
    titles[p["id"]] = p["title"]
rows = []
for c in json.load(open("/verif/MANIFEST.json"))["claims"]:
    bad = [t for t in c["theorems"] if t.endswith("_refuted")]
    if bad:
        rows.append((c["property"], titles[c["property"]], bad, c["note"]))
text = open("/verif/DESIGN.md").read().split(HEAD)[0].rstrip() + "\n\n" + HEAD + "\n\n"
text += ("Properties that are false of the code as worded in `properties.jsonl`, the theorems that show it,\n"
         "and what holds instead (the notes of `MANIFEST.json`; written by `tools/findings.py`).\n\n")
for i, t, bad, note in rows:
    text += "* **%s** %s. %s (%s)\n" % (i, t.rstrip("."), note, ", ".join("`%s`" % b for b in bad))
open("/verif/DESIGN.md", "w").write(text)
print(len(rows))
