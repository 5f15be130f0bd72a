#!/usr/bin/env python3
"""Regenerates MANIFEST.json from the table below (kept by hand)."""
import json
claims = []
def c(p, status, thms, note):
    claims.append({"property": p, "status": status, "theorems": thms.split(), "note": note})
exec(open('/verif/manifest_table.py').read())
claims.sort(key=lambda x: x["property"])
json.dump({"claims": claims}, open('/verif/MANIFEST.json', 'w'), indent=1)
