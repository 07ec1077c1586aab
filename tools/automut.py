#!/usr/bin/env python3
"""Generic edits of definitions of the model that no attempt in seeded/LOG.jsonl has edited,
each built in a scratch copy until the first failure.
usage: automut.py OUT.jsonl PART PARTS [FILE...]"""
import json, os, re, subprocess, sys, shutil, random
out, part, parts = sys.argv[1], int(sys.argv[2]), int(sys.argv[3])
S = f'/tmp/amut{part}'; SRC = os.environ.get('MUTSRC', '/tmp/mutsrc')
files = sys.argv[4:] or "Regex Unicode PathEsc PosixPath ProcessPath OptionsM MColl DtypeShape Dec NdArray Value StrConv ComplexM Attrs NpDims Hdf5 NpWrite NpRead MarshalW MarshalR FileApi OpenM ThreadM MapM Session Dispatch".split()
done = set()
for l in open('/verif/seeded/LOG.jsonl'):
    done.add(json.loads(l)['definition'].split('.')[-1].split(' ')[0])
random.seed(7)
EX = ['ValueError', 'TypeError', 'KeyError', 'NotImplementedError', 'OSError']
def muts(b):
    r = []
    def add(m, t): r.append((m.start(), m.end(), t))
    for m in re.finditer(r'\btrue\b', b): add(m, 'false')
    for m in re.finditer(r'\bfalse\b', b): add(m, 'true')
    for m in re.finditer(r'negb \(', b): add(m, '(')
    for m in re.finditer(r'&&', b): add(m, '||')
    for m in re.finditer(r'\|\|', b): add(m, '&&')
    for m in re.finditer(r'<=\?', b): add(m, '<?')
    for m in re.finditer(r'(?<!<)=\?', b): add(m, '<=?')
    for m in re.finditer(r'<\?', b): add(m, '<=?')
    for m in re.finditer(r'(?<![\w\']) ?\b(\d+)\b(?![\w\'])', b): r.append((m.start(1), m.end(1), str(int(m.group(1)) + 1)))
    for m in re.finditer(r'lit "([^"]*)"', b): add(m, f'lit "{m.group(1)}x"')
    for m in re.finditer(r'\brev \(', b): add(m, '(')
    for m in re.finditer(r'\bfst\b', b): add(m, 'snd')
    for m in re.finditer(r'\bsnd\b', b): add(m, 'fst')
    for m in re.finditer(r'\bfirstn\b', b): add(m, 'skipn')
    for m in re.finditer(r'\bskipn\b', b): add(m, 'firstn')
    for m in re.finditer(r'\bif ((?:(?!then|if).)+?) then', b): r.append((m.start(1), m.end(1), f'negb ({m.group(1)})'))
    for m in re.finditer(r'\b(' + '|'.join(EX) + r')\b', b): add(m, EX[(EX.index(m.group(1)) + 1) % len(EX)])
    for m in re.finditer(r'\bS \(?(\w+)\)?', b): pass
    for m in re.finditer(r'step\* _ := [^;\n]*? in|let\* _ := [^;\n]*? in', b): add(m, '')
    return r
jobs = []
for f in files:
    s = open(f'{SRC}/theories/{f}.v').read()
    for m in re.finditer(r'^[ \t]*(?:Definition|Fixpoint)\s+([\w\']+)(.*?)\.(?=\s)', s, re.M | re.S):
        if m.group(1) in done: continue
        i = s.index(':=', m.start()) if ':=' in s[m.start():m.end()] else m.start()
        ms = [(a + i, b + i, t) for a, b, t in muts(s[i:m.end()])]
        ms = [x for x in ms if '(*' not in s[s.rfind('\n', 0, x[0]):x[0]]]
        random.shuffle(ms)
        if ms: jobs.append((f, m.group(1), s, ms[:4]))
for n, (f, d, s, ms) in enumerate(jobs):
    if n % parts != part: continue
    for a, b, t in ms:
        subprocess.run(f'rm -rf {S}; cp -a {SRC} {S}', shell=True, check=True)
        open(f'{S}/theories/{f}.v', 'w').write(s[:a] + t + s[b:])
        try: r = subprocess.run(f'cd {S} && ulimit -v 8000000; make -j2 2>&1', shell=True, capture_output=True, text=True, timeout=1200).stdout
        except subprocess.TimeoutExpired: r = 'File "./theories/TIMEOUT.v", line 1, characters 1-1:\nError\n'
        fails = []; bad = False
        for m in re.finditer(r'File "\./theories/(\w+)\.v", line (\d+), characters[^\n]*\n((?:.*\n){0,1})', r):
            if 'Warning' in m.group(3): continue
            nm = '?'
            if m.group(1) != 'TIMEOUT':
                ls = open(f'{S}/theories/{m.group(1)}.v').read().split('\n')
                for k in range(int(m.group(2)) - 1, -1, -1):
                    q = re.match(r'\s*(Theorem|Lemma|Example|Definition|Fixpoint|Corollary|Fact)\s+([\w\']+)', ls[k])
                    if q: nm = q.group(2); bad = bad or q.group(1) in ('Definition', 'Fixpoint'); break
            fails.append(m.group(1) + '.' + nm)
        if bad: continue
        ctx = s[max(s.rfind('\n', 0, a), a - 60):min(s.find('\n', b), b + 60) if s.find('\n', b) > 0 else b + 60].strip()
        ctx2 = (s[max(s.rfind('\n', 0, a), a - 60):a] + t + s[b:min(s.find('\n', b), b + 60)]).strip()
        rec = dict(definition=f'{f}.{d}', edit=f'{ctx} -> {ctx2}', failed=fails)
        open(out, 'a').write(json.dumps(rec) + '\n')
        print(('KILLED ' if fails else 'SURVIVED ') + f'{f}.{d} | {ctx2} | {fails}', flush=True)
        break
print('END')
