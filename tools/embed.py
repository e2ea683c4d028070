#!/usr/bin/env python3
"""Write rocq/theories/SrcText.v: the text of every file under /repo/src and of README.md, line by line.
   With --check, compare the committed file with /repo instead."""
import os, sys
here = os.path.dirname(os.path.abspath(__file__))
out = os.environ.get('EMBED_OUT', os.path.join(here, '..', 'rocq', 'theories', 'SrcText.v'))
src = os.environ.get('EMBED_SRC', '/repo/src')
readme = os.environ.get('EMBED_README', '/repo/README.md')

def files():
    for d, _, fs in sorted(os.walk(src)):
        for f in sorted(fs):
            yield os.path.relpath(os.path.join(d, f), src)

def ident(f):
    return f.replace('/', '__').replace('.', '_')

def text():
    o = ['(** The text of every file under /repo/src and of README.md, line by line, written by tools/embed.py',
         '    (tools/embed.py --check compares it with /repo).  Nothing is left out: comments,',
         '    tests and the file no module declares (instruction/opcode.rs) are here too.',
         '    A double quote is doubled, as in every Coq string. *)',
         'From Coq Require Import List.', 'From Verif Require Import SrcLine.',
         'Import ListNotations.', 'Local Open Scope line_scope.', '']
    fs = list(files())
    for f in fs + [None]:
        data = open(os.path.join(src, f) if f else readme, encoding='ascii').read()
        assert data.endswith('\n')
        lines = data[:-1].split('\n')
        o += ['(** %s *)' % ('src/' + f if f else 'README.md'),
              'Definition %s : list line := [' % (ident(f) if f else 'readme')]
        o += ['"%s"%s' % (l.replace('"', '""'), ';' if i + 1 < len(lines) else '')
              for i, l in enumerate(lines)]
        o += ['].', '']
    o += ['(** Every file under src, with its path there. *)',
          'Definition source : list (line * list line) := [']
    o += ['  ("%s", %s)%s' % (f, ident(f), ';' if i + 1 < len(fs) else '') for i, f in enumerate(fs)]
    o += ['].', '']
    return '\n'.join(o)

if '--check' in sys.argv:
    ok = open(out).read() == text()
    print('same' if ok else 'DIFFERENT')
    sys.exit(0 if ok else 1)
open(out, 'w').write(text())
