#!/usr/bin/env python3
"""DESIGN.md from design_head.md, the first comment of every file, properties.jsonl and MANIFEST.json"""
import json,re,os,glob,sys
D=os.path.dirname(os.path.abspath(__file__)); V=os.path.join(D,'..')
sys.path.insert(0,D)
from design_how import H
out=open(os.path.join(D,'design_head.md')).read()
out+="| file | contents |\n|---|---|\n"
for f in sorted(glob.glob(V+'/rocq/theories/*.v')):
    s=open(f).read(); m=re.search(r'\(\*\*(.*?)\*\)',s[:1500],re.S)
    c=' '.join(m.group(1).split()) if m else ''
    c=re.split(r'(?<=[a-z0-9\])])\.(?: |$)',c)[0].replace('|','/')
    out+=f"| {os.path.basename(f)} | {c[:220]} |\n"
out+="\n## Properties\n\nproved: all of the statement, under the conditions in the note.  partial: false of the code or proved for part; see the note.\n\n| | property | model and proof | status | theorems | note |\n|---|---|---|---|---|---|\n"
M={c['property']:c for c in json.load(open(V+'/MANIFEST.json'))['claims']}
for l in open(V+'/properties.jsonl'):
    p=json.loads(l); c=M[p['id']]
    out+=f"| {p['id']} | {p['title']} | {H.get(p['id'],'')} | {c['status']} | {', '.join(c['theorems'])} | {c['note'].replace('|','/')} |\n"
    if p['id'] not in H: print('no method for',p['id'])
open(V+'/DESIGN.md','w').write(out)
