#!/usr/bin/env python3
"""Generate theories/Width.v: the definitions of the model that depend on the
width of [usize], with that width a parameter.

Every definition of the model that uses [as_usize], directly or through other
definitions, is copied with the suffix [_w]; everything else is shared.  The
copies at width 64 are convertible to the originals (WidthProofs.v)."""
import os, re

HERE = os.path.dirname(os.path.abspath(__file__))
T = os.path.join(HERE, '..', 'rocq', 'theories')
FILES = "Core SegArray Header Body Attributes FrameDecoder Network Parser SpecReplay Display".split()


def sentences(src):
    """(comment, text, is_end_of_comment) pieces: split a file in vernacular
    sentences with the comment in front of each"""
    out, i, n, comment = [], 0, len(src), ''
    while i < n:
        if src[i].isspace():
            i += 1
        elif src.startswith('(*', i):
            depth, j = 0, i
            while True:
                if src.startswith('(*', j):
                    depth += 1
                    j += 2
                elif src.startswith('*)', j):
                    depth -= 1
                    j += 2
                    if depth == 0:
                        break
                else:
                    j += 1
            comment = src[i:j]
            i = j
        else:
            j, quote = i, False
            while True:
                if src[j] == '"':
                    quote = not quote
                elif not quote and src.startswith('(*', j):
                    j = src.index('*)', j) + 1
                elif not quote and src[j] == '.' and (j + 1 == n or src[j + 1].isspace()):
                    break
                j += 1
            out.append((comment, src[i:j + 1]))
            comment = ''
            i = j + 1
    return out


def strip(text):
    return re.sub(r'"[^"]*"', '""', re.sub(r'\(\*.*?\*\)', '', text, flags=re.S))


pieces = {f: sentences(open(os.path.join(T, f + '.v')).read()) for f in FILES}
DEF = re.compile(r'(Definition|Fixpoint)\s+(\w+)')

# names that depend on as_usize
dep, changed = {'as_usize'}, True
while changed:
    changed = False
    for f in FILES:
        if f == 'SpecReplay':
            continue
        for _, s in pieces[f]:
            m = DEF.match(s)
            if m and m.group(2) not in dep and any(
                    re.search(r'(?<![\w."])%s\b' % d, strip(s)) for d in dep):
                dep.add(m.group(2))
                changed = True
dep.add('parse_with')

# the section variables each definition of a section uses, directly or not
uses = {}
for f in FILES:
    variables, lets = [], {}
    for _, s in pieces[f]:
        if s.startswith('Let '):
            lets[s.split()[1]] = [v for v in variables if re.search(r'\b%s\b' % v, s)]
        if s.startswith('Context'):
            variables += re.findall(r'\((\w+) :', s)
        elif s.startswith('End'):
            variables = []
        m = DEF.match(s)
        if m and variables:
            body = strip(s)
            used = [v for v in variables if re.search(r'\b%s\b' % v, body)]
            for let, vs in lets.items():
                if re.search(r'\b%s\b' % let, body):
                    used += vs
            for other, vs in uses.items():
                if re.search(r'\b%s\b' % other, body):
                    used += vs[1] if vs[0] == f else []
            uses[m.group(2)] = (f, [v for v in variables if v in used])


def rename(f, text):
    def sub(m):
        w = m.group(0)
        if w in dep:
            return w + '_w'
        if w in uses and uses[w][0] == f and uses[w][1]:
            return '(%s %s)' % (w, ' '.join(uses[w][1]))
        return w
    # string literals are left alone
    parts = re.split(r'("[^"]*")', text)
    return ''.join(p if p.startswith('"') else re.sub(r"(?<![\w'])[A-Za-z_]\w*(?![\w'])", sub, p) for p in parts)


out = ['''(** * The width of [usize]: the same model with that width a parameter

    Generated by tools/gen_width.py from the model files.  Every definition of
    the model that uses [as_usize] is repeated here with the suffix [_w] and
    with [w], the number of bits of [usize], instead of 64; definitions that do
    not depend on it are shared.  At width 64 the copies are the originals
    (WidthProofs.v, by conversion). *)

From Coq Require Import ZArith List Bool.
From Verif Require Import Base F32 Text NetTypes SegArray Errors Core Header Body BitReader
  NetModels Attributes Data ObjectIndex FrameDecoder Network Crc Parser Display.
Open Scope Z_scope.

Section Width.
Context (w : Z).

(** core_parser.rs:102, 112; network/models.rs:270: [x as usize] on a platform
    where [usize] has [w] bits *)
Definition as_usize_w (x : Z) : Z := x mod 2 ^ w.
''']
for f in FILES:
    out.append('(** ** %s.v *)\n' % f)
    for c, s in pieces[f]:
        m = DEF.match(s)
        if s.startswith('Section'):
            out.append(s.replace('.', 'W.'))
        elif s.startswith('End'):
            out.append(s.replace('.', 'W.') + '\n')
        elif s.startswith('Context') or s.startswith('Let '):
            out.append(s + '\n')
        elif m and m.group(2) in dep and m.group(2) != 'as_usize':
            if f == 'SpecReplay':
                c = '(** parser.rs:319-326: parsing with the two options given explicitly *)'
            out.append(c + '\n' + rename(f, s) + '\n')
out.append('End Width.')
open(os.path.join(T, 'Width.v'), 'w').write('\n'.join(out) + '\n')
print('copied %d definitions' % len(dep))
