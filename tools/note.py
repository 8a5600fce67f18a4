#!/usr/bin/env python3
"""note.py ID STATUS NOTE: record a status note for a property."""
import json,sys,os
f=os.path.join(os.path.dirname(__file__),'status.json')
d=json.load(open(f)); d[sys.argv[1]]={"status":sys.argv[2],"note":sys.argv[3]}
json.dump(d,open(f,'w'),indent=0)
