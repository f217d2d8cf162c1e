#!/usr/bin/env python3
"""tools/note.py Cnn status 'note': set the status and note of a property and rebuild MANIFEST.json"""
import json, sys, os, subprocess
root = os.path.dirname(os.path.abspath(__file__))
f = root + "/notes.json"
n = json.load(open(f))
n[sys.argv[1]] = {"status": sys.argv[2], "note": sys.argv[3]}
json.dump(n, open(f, "w"), indent=1, sort_keys=True)
subprocess.check_call([sys.executable, root + "/gen_manifest.py"])
