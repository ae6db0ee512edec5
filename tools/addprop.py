#!/usr/bin/env python3
"""Append properties (JSON objects on stdin, one per line) to properties.jsonl unless the id exists."""
import sys, json
have = {json.loads(l)["id"] for l in open("/verif/properties.jsonl")}
with open("/verif/properties.jsonl", "a") as f:
    for l in sys.stdin:
        if not l.strip(): continue
        d = json.loads(l)
        assert set(d) == {"id","title","statement","quantifier","why_tests_cant","anchors"}, d
        if d["id"] in have: continue
        f.write(json.dumps(d) + "\n")
