#!/usr/bin/env python3
"""append the results of mutate.py to seeded/LOG.jsonl"""
import json, sys
out = open('/verif/seeded/LOG.jsonl', 'a')
for l in open(sys.argv[1]):
    d = json.loads(l)
    out.write(json.dumps({"definition": d["definition"], "edit": d["edit"], "claim": d["claim"],
      "theorems_failed": d["failed"], "property_files_blocked": d["blocked"], "theorems_tightened": d.get("tightened", [])}) + '\n')
