#!/usr/bin/env python3
"""Regenerates /verif/MANIFEST.json from the table below."""
import json
T=[]
def m(p,status,thms,note=""):
    T.append({"property":p,"status":status,"theorems":thms.split(),"note":note})
exec(open("/verif/tools/manifest_table.py").read())
json.dump({"claims":T},open("/verif/MANIFEST.json","w"),indent=1)
