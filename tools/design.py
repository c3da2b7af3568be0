"""Writes DESIGN.md: the fixed text below, the table of files (from the comment at the head of each
theory file) and the table of properties (from claims.py and the Props files)."""
import os, re, json
here = os.path.dirname(os.path.abspath(__file__))
root = os.path.dirname(here)
th = root + '/rocq/theories/'
T = {}
exec(open(here + '/claims.py').read())
props = [json.loads(l) for l in open(root + '/properties.jsonl')]
title = {p['id']: p['title'] for p in props}
names = {}
for f in sorted(os.listdir(th)):
    if f.startswith('Props') and f.endswith('.v'):
        for m in re.finditer(r'^Theorem (C\d\d)_(\w+)', open(th + f).read(), re.M):
            names.setdefault(m.group(1), []).append((f, m.group(2)))

def head(f):
    s = open(th + f).read()
    m = re.match(r'\(\*\*(.*?)\*\)', s, re.S)
    t = ' '.join(m.group(1).split())
    t = re.split(r'(?<=[a-z\])])\.\s', t)[0].rstrip('.') + '.'
    return t

order = [l.strip()[9:] for l in open(root + '/rocq/_CoqProject') if l.strip().endswith('.v')]
model = "Base PyStr Base64 Env Prog Chain Gpg Mime MimeTree States Recommendation Account Cmdline Bot BotCommand Commands Click Group Fs Disk Crash Conc Api Plugins Reader Reads Live RecObj GpgMore EmailText".split()
spec = [f[:-2] for f in order if 'Spec' in f]
propf = [f[:-2] for f in order if f.startswith('Props')]
ex = ['Toy', 'Demo']
rest = [f[:-2] for f in order if f[:-2] not in model + spec + propf + ex]

def table(fs):
    out = ['| file | contents |', '|------|----------|']
    for f in fs:
        if os.path.exists(th + f + '.v'):
            out.append('| `%s` | %s |' % (f, head(f + '.v').replace('|', '\\|')))
    return '\n'.join(out)

def proptable():
    out = ['| id | property | status | file | theorems | remarks |', '|----|----|----|----|----|----|']
    for i in sorted(T):
        st, note = T[i]
        fs = sorted({f for f, _ in names[i]})
        out.append('| %s | %s | %s | %s | %s | %s |' % (
            i, title[i].replace('|', '\\|'), st, ', '.join(f[:-2] for f in fs),
            ', '.join('`' + n + '`' for _, n in names[i]), note.replace('|', '\\|')))
    return '\n'.join(out)

text = open(here + '/design.in').read()
text = text.replace('@MODEL@', table(model)).replace('@SPEC@', table(spec)).replace('@PROOF@', table(rest))
text = text.replace('@EX@', table(ex)).replace('@PROPFILES@', table(propf)).replace('@PROPS@', proptable())
open(root + '/DESIGN.md', 'w').write(text)
