#!/usr/bin/env python3
"""Appends the results of tools/mutate.py to seeded/LOG.jsonl. Usage: log_mutants.py RESULTS.jsonl [NOTES.json]
NOTES.json: {"M51": {"note": "...", "tightened": [...]}}"""
import json,sys,os
ROOT=os.path.dirname(os.path.dirname(os.path.abspath(__file__)))
notes=json.load(open(sys.argv[2])) if len(sys.argv)>2 else {}
log=ROOT+"/seeded/LOG.jsonl"; seen=set()
if os.path.exists(log):
    for l in open(log):
        d=json.loads(l); seen.add((d.get("id"),d.get("attempt",1)))
with open(log,"a") as o:
    for l in open(sys.argv[1]):
        d=json.loads(l)
        if "error" in d: print("error",d["id"],d["error"][:200]); continue
        n=notes.get(d["id"],{}); att=n.get("attempt",1)
        if (d["id"],att) in seen: continue
        exp=set(d.get("expect",[]))
        o.write(json.dumps(dict(id=d["id"],attempt=att,file=f"rocq/theories/{d['file']}.v",definition=d["definition"],edit=d["edit"],replace=d["edits"],claim=d["claim"],
          expected=d.get("expect",[]),caught=d["caught"],theorems_failed=d["failed"],proofs_broken=d["admitted"],theorems_tightened=n.get("tightened",[]),note=n.get("note","")))+"\n")
