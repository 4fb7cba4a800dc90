#!/usr/bin/env python3
"""Turn the answers of mutate.py (files of JSON lines) into seeded/LOG.jsonl entries.

  seedlog.py NOTES ANSWERS...

NOTES maps "definition | new line" of an edit no theorem noticed to
{"claim", "tightened", "note"}.  The proof search of mutate.py stops at the first file
with a failing lemma, so "failed" names the theorems that rest on that lemma."""
import json, os, re, sys
root = os.path.dirname(os.path.dirname(os.path.abspath(__file__)))
title = {}
for l in open(root + '/properties.jsonl'):
    d = json.loads(l); title[d['id']] = d['title']
notes = json.load(open(sys.argv[1]))
seen = set()
for f in sys.argv[2:]:
    for l in open(f):
        o = json.loads(l)
        if 'error' in o or 'ill_typed' in o: continue
        key = o['definition'] + ' | ' + o['became']
        if key in seen: continue
        seen.add(key)
        e = {'definition': o['definition'], 'edit': o['line'] + '  =>  ' + o['became']}
        n = notes.get(key)
        th = o['theorems']
        ids = sorted({t.split('_')[0] for t in th if not t.endswith('_refuted')}) or sorted({t.split('_')[0] for t in th})
        if n:
            e.update({'claim': n['claim'], 'failed': th, 'tightened': n.get('tightened', [])})
            if 'note' in n: e['note'] = n['note']
        elif not th:
            e.update({'claim': '?', 'failed': [], 'tightened': []}); print('unexplained', key, file=sys.stderr)
        else:
            shown = ids[:4]
            e.update({'claim': '; '.join(f'{i} {title[i]}' for i in shown) + (f' (and {len(ids)-4} more)' if len(ids) > 4 else ''),
                      'failed_lemmas': o['bad'][:3], 'failed': th[:12] + ([f'... {len(th)-12} more'] if len(th) > 12 else []), 'tightened': []})
        print(json.dumps(e, ensure_ascii=False))
