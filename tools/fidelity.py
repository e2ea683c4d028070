#!/usr/bin/env python3
"""Compares the model with /repo, definition by definition, as text.

Each definition of the model cites the lines of /repo it models.  For each, the opcode, error, format
and ISA names, the numbers and the string literals are listed in the order they appear in the cited
lines and in the definition; the two lists have to be equal.  Nothing of /repo is executed.

Left out: numbers that are integer widths of the model's primitives, texts of panics.
Run from anywhere:  python3 tools/fidelity.py
"""
import difflib
import os
import re
import sys

REPO = '/repo/src/'
TH = os.path.join(os.path.dirname(os.path.abspath(__file__)), '..', 'rocq', 'theories')
FILES = ['DecodeUtil', 'Dec32', 'Dec16', 'Decode', 'Types', 'Fmt', 'Debug']
ENUMS = r'(?:BaseI|M|A|C|Zicsr|Zicntr|Zicfiss|Zicboz|Zifencei|Priv)Opcode|OpcodeKind|DecodingError|Isa|InstFormat|Extensions'
PREFIX = r'(?:I|M|A|C|Fe|Cbo|Csr|Ss|Cnt|P)_([A-Z0-9_]+)'
EXT = 'BaseI|M|A|C|Zifencei|Zicboz|Zicsr|Zicfiss|Zicntr|Priv'
ERR = ('Not16BitInst|Not32BitInst|InvalidFunct[3567]|InvalidOpcode|UnknownExtension'
       '|IllegalInstruction|OnlyRv64Inst')
BY_EYE = ['slice_u32', 'slice_u16', 'set_loop', 'set_u32', 'set_u16',      # loops and checked arithmetic
          'decode_debug']                                                    # derived, nothing to compare
FMT = r'(?:R|RShamt|I|S|B|U|J|Cr|Ci|Css|Ciw|Cl|Cs|Ca|Cb|Cj|Csr|CsrUi|M|A|ALr)Format|NoOperand|Only(?:Rd|Rs1|Rs2)'


def num(t):
    t = t.replace('_', '')
    return int(t) if t.isdigit() else int(t, 0)


def pieces(s):
    """The literal pieces of a format string."""
    s = s.replace('{:#x}', '0x{}')
    return ['"' + p + '"' for p in re.split(r'\{[^}]*\}', s.strip('"')) if p]


def rust_tokens(s):
    s = re.sub(r'//.*|Self::Error', '', s)
    s = re.sub(r'(panic!|expect)\("[^"]*"\)', '', s)
    s = re.sub(r'(0x[0-9a-f]+)\.\.=(0x[0-9a-f]+)',
               lambda m: ' | '.join(map(hex, range(int(m[1], 16), int(m[2], 16) + 1))), s)
    s = re.sub(r'OpcodeKind::(\w+)\(\s*([^()]*\|[^()]*?),?\s*\)',                  # or-patterns, distributed
               lambda m: ' | '.join(f'OpcodeKind::{m[1]}({x.strip()})' for x in m[2].split('|')), s)
    out = []
    for m in re.finditer(r'"[^"]*"|\b(' + ENUMS + '|Self' + r')::(\w+)'
                         r'|\b(0b[01_]+|0x[0-9a-fA-F_]+|\d[\d]*)(?:_?[ui]\d+|usize)?\b|\b(None|Some)\b', s):
        if m[2]:
            out.append(m[2])
        elif m[3]:
            out.append(num(m[3]))
        elif m[4]:
            out.append(m[4])
        else:
            out += pieces(m[0])
    return out


def coq_tokens(s):
    s = re.sub(r'\(\*.*?\*\)', '', s, flags=re.S)
    s = re.sub(r'outcome \(option Z\)', '', s)
    s = re.sub(r'\b(ck_u|shr|shl_u|try_from_expect) \d+', '', s)      # integer widths
    s = re.sub(r'prime_reg p inst (\d+) (\d+)', r'\1 \2 8', s)         # (inst.slice(..) + 8)
    out = []
    for m in re.finditer(r'"[^"]*"|\b' + PREFIX + r'\b|\b(' + ERR + '|Rv32|Rv64|None|Some|' + FMT +
                         r')\b|\b(?:E|O)(' + EXT + r')\b|\b(0x[0-9a-fA-F]+|\d+)\b', s):
        if m[1]:
            out.append(m[1])
        elif m[2]:
            out.append(m[2])
        elif m[3]:
            out.append(m[3])
        elif m[4]:
            out.append(num(m[4]))
        else:
            out.append(m[0])
    return out


def main():
    bad = 0
    counts = [0, 0]
    for f in FILES:
        src = open(os.path.join(TH, f + '.v')).read()
        defs = []
        for m in re.finditer(r'\(\*\*((?:(?!\*\)).)*)\*\)\s*(Definition|Fixpoint|Inductive|Record)\s+(\w+)'
                             r'(.*?\.)\s*(?=\n\s*\n|\Z)', src, re.S):
            c = re.search(r'src/([\w/]+\.rs):(\d+)(?:-(\d+))?', m[1])
            if c:
                defs.append((m[2], m[3], m[4], c[1], int(c[2]), int(c[3] or c[2])))
        for kind, name, body, rs, a, b in defs:
            if name in BY_EYE:
                continue
            lines = open(REPO + rs).read().split('\n')
            inner = [(x, y) for _, n, _, r, x, y in defs
                     if r == rs and n != name and a <= x and y <= b and name.startswith('basei_parse_imm')]
            text = '\n'.join(lines[i - 1] for i in range(a, b + 1)
                             if not any(x <= i <= y for x, y in inner))
            if f == 'Debug' or kind in ('Inductive', 'Record'):
                # derived implementations and types: the variants (or fields) in order
                body_rs = re.sub(r'//.*|#\[[^\]]*\]', '', text)
                body_rs = body_rs[body_rs.index('{') + 1:]
                if 'struct ' in text:
                    r = re.findall(r'pub (\w+):', body_rs)
                else:
                    r = re.findall(r'\b([A-Z]\w*)(?:\((?:\w+::)?\w+\))?,', body_rs)
                if kind in ('Inductive', 'Record'):
                    cb = re.sub(r'\(\*.*?\*\)', '', body, flags=re.S)
                    if kind == 'Record':
                        k = re.findall(r'(\w+) :', cb.split('{')[1])
                    else:
                        cb = cb[cb.index(':=') + 2:]
                        k = [re.sub(r'\s.*', '', x.strip(), flags=re.S).rstrip('.')
                             for x in cb.split('|') if x.strip()]
                        k = [re.sub('^' + PREFIX + '$', r'\1', x) for x in k]
                        k = [re.sub(r'^[EO](' + EXT + r')$', r'\1', x) for x in k]
                else:
                    k = [x for x in re.findall(r'"([^"]*)"', body)]
                    if name == 'Instruction_debug':
                        k = k[1:]          # the name of the struct
            else:
                r, k = rust_tokens(text), coq_tokens(body)
            ok = r == k
            if f == 'Debug' and not ok:
                ok = sorted(r) == sorted(k)     # the arms of a match on distinct constructors
            counts[0] += 1
            counts[1] += len(r)
            if not ok:
                bad += 1
                print('DIFF', f, name, f'{rs}:{a}-{b}')
                for op, i1, i2, j1, j2 in difflib.SequenceMatcher(
                        None, list(map(str, r)), list(map(str, k)), autojunk=False).get_opcodes():
                    if op != 'equal':
                        print('      rust', r[i1:i2], ' model', k[j1:j2])
    print(counts[0], 'definitions,', counts[1], 'tokens,', bad, 'differences')
    return bad


if __name__ == '__main__':
    sys.exit(1 if main() else 0)
