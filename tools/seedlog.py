#!/usr/bin/env python3
"""Append finished seeded-bug results to seeded/LOG.jsonl.

usage: seedlog.py RESULTS.jsonl TARGETS.json
TARGETS maps the id of an attempt to [claim, theorems whose own statement the edit makes false,
theorems tightened, note]. "failed" lists every theorem whose proof no longer goes through, which
includes those that only depend on a broken lemma; "falsified" lists the ones whose statement
itself was compared with the edit and found false."""
import json, os, sys
LOG = os.path.join(os.path.dirname(os.path.abspath(__file__)), "..", "seeded", "LOG.jsonl")
have = {json.loads(l)["id"] for l in open(LOG)} if os.path.exists(LOG) else set()
targets = json.load(open(sys.argv[2]))
with open(LOG, "a") as out:
    for l in open(sys.argv[1]):
        r = json.loads(l)
        if r["id"] in have or r["id"] not in targets:
            continue
        claim, falsified, tightened, note = targets[r["id"]]
        out.write(json.dumps({
            "id": r["id"], "definition": r["file"], "edit": {"old": r["old"], "new": r["new"]},
            "claim": claim, "failed": r["failed"], "broken_lemmas": r["broken"],
            "failed_examples": r["examples"], "falsified": falsified, "tightened": tightened, "note": note}) + "\n")
