"""Append the results of mutate.py to /verif/seeded/LOG.jsonl.

usage: seedlog.py RESULTS.jsonl [TIGHTENED.json]

TIGHTENED.json maps an index of mutants.py to the theorems that were tightened or added
because of it.  A line already in the log is not added again."""
import json, os, sys
LOG = os.path.join(os.path.dirname(os.path.abspath(__file__)), "..", "seeded", "LOG.jsonl")
tight = json.load(open(sys.argv[2])) if len(sys.argv) > 2 else {}
have = set(l.rstrip("\n") for l in open(LOG)) if os.path.exists(LOG) else set()
with open(LOG, "a") as out:
    for line in open(sys.argv[1]):
        r = json.loads(line)
        rec = dict(definition=r["file"] + ": " + r["definition"], edit=dict(old=r["old"], new=r["new"]), what=r["what"],
                   claim=r["claim"] if not r["theorems"] or any(t.startswith(r["claim"] + "_") for t in r["theorems"])
                   else sorted({t[:3] for t in r["theorems"]}), failed=r["theorems"], lemmas=[b for b in r["broken"] if b.split(".")[1] not in r["theorems"]][:12],
                   tightened=tight.get(str(r["index"]), []))
        if r["note"]: rec["note"] = r["note"]
        t = json.dumps(rec)
        if t not in have:
            out.write(t + "\n"); have.add(t)
