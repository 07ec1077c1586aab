#!/usr/bin/env python3
"""Tests the theorems against wrong programs, in a scratch copy.
usage: mutate.py SPEC.json [LOG.jsonl]; SPEC: list of {file, definition, old, new, claim}"""
import json, os, re, subprocess, sys, shutil
spec = json.load(open(sys.argv[1])); log = sys.argv[2] if len(sys.argv) > 2 else None
S = os.environ.get('MUTDIR', '/tmp/mut')
def name_at(path, line):
    ls = open(path).read().split('\n')
    for i in range(min(line, len(ls)) - 1, -1, -1):
        m = re.match(r'\s*(?:#\[.*\]\s*)?(?:Local\s+)?(Theorem|Lemma|Example|Definition|Fixpoint|Corollary|Fact)\s+([\w\']+)', ls[i])
        if m: return m.group(2)
    return '?'
for e in spec:
    shutil.rmtree(S, ignore_errors=True); subprocess.run(['cp', '-a', os.environ.get('MUTSRC', '/verif/rocq'), S], check=True)
    p = f"{S}/theories/{e['file']}.v"; s = open(p).read()
    if s.count(e['old']) != 1:
        print('BAD', e['definition'], s.count(e['old']), e['old'][:60]); continue
    open(p, 'w').write(s.replace(e['old'], e['new']))
    r = subprocess.run(f'cd {S} && make -k -j3 2>&1', shell=True, capture_output=True, text=True, timeout=3000).stdout
    fails = []; files = set()
    for m in re.finditer(r'File "\./theories/(\w+)\.v", line (\d+), characters[^\n]*\n((?:.*\n){0,1})', r):
        if 'Warning' in m.group(3): continue
        n = name_at(f'{S}/theories/{m.group(1)}.v', int(m.group(2)))
        files.add(m.group(1)); fails.append(m.group(1) + '.' + n)
    deps = {}
    for f in os.listdir(S + '/theories'):
        if f.endswith('.v'): deps[f[:-2]] = set(' '.join(re.findall(r'From Verif Require (?:Import|Export) ([^.]*)\.', open(S + '/theories/' + f).read())).split())
    bad = set(files); grew = True
    while grew:
        new = {f for f in deps if f not in bad and deps[f] & bad}; grew = bool(new); bad |= new
    blocked = sorted(f for f in bad if f.startswith('Props_') and f not in files)
    out = dict(definition=f"{e['file']}.{e['definition']}", edit=f"{e['old']} -> {e['new']}", claim=e['claim'], failed=fails,
               blocked=blocked, tightened=[])
    print(('KILLED ' if fails else 'SURVIVED ') + out['definition'], e['new'][:70].replace('\n', ' '), '|', fails, '| blocked', out['blocked'], flush=True)
    if log: open(log, 'a').write(json.dumps(out) + '\n')
