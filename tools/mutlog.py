#!/usr/bin/env python3
"""Append the results of a mutation run (JSON written by the scratch harness) to seeded/LOG.jsonl.
Usage: mutlog.py results.json [tightened.json [falsified.json]]; for the meaning of the fields see DESIGN.md, section 6."""
import json, os, sys
here = os.path.dirname(os.path.abspath(__file__))
log = os.path.join(here, '..', 'seeded', 'LOG.jsonl')
tight = json.load(open(sys.argv[2])) if len(sys.argv) > 2 else {}
false = json.load(open(sys.argv[3])) if len(sys.argv) > 3 else None
with open(log, 'a') as f:
    for r in json.load(open(sys.argv[1])):
        m = r['mut']
        d = {
            'definition': f"{m['file']}.{m['def']}", 'edit': m['edit'], 'breaks': m['claim'],
            'failed': r.get('dead', []), 'tightened': tight.get(m['id'], [])}
        if false is not None:
            d['falsified'] = false.get(m['id'], [])
        f.write(json.dumps(d) + '\n')
