#!/usr/bin/env python3
"""Generate theories/Cost.v: the model of the frame decoder with its operations
counted.

Every definition of the model that works on the bit reader, directly or through
other definitions, is copied with the suffix [_c]; the state of the copies has a
counter besides.  The operations of the bit reader and of the decoder's state
(PRIM below) count, everything else passes the counter on.  Without the counter
the copies compute what the originals compute (CostProofs.v)."""
import os, re, sys

sys.path.insert(0, os.path.dirname(os.path.abspath(__file__)))
HERE = os.path.dirname(os.path.abspath(__file__))
T = os.path.join(HERE, '..', 'rocq', 'theories')
FILES = "BitReader NetModels Attributes FrameDecoder".split()


def sentences(src):
    """(comment, sentence) pairs of a file"""
    out, i, n, comment = [], 0, len(src), ''
    while i < n:
        if src[i].isspace():
            i += 1
        elif src.startswith('(*', i):
            depth, j = 0, i
            while True:
                if src.startswith('(*', j):
                    depth += 1
                    j += 2
                elif src.startswith('*)', j):
                    depth -= 1
                    j += 2
                    if depth == 0:
                        break
                else:
                    j += 1
            comment = src[i:j]
            i = j
        else:
            j, quote = i, False
            while True:
                if src[j] == '"':
                    quote = not quote
                elif not quote and src.startswith('(*', j):
                    j = src.index('*)', j) + 1
                elif not quote and src[j] == '.' and (j + 1 == n or src[j + 1].isspace()):
                    break
                j += 1
            out.append((comment, src[i:j + 1]))
            comment = ''
            i = j + 1
    return out


def strip(text):
    return re.sub(r'"[^"]*"', '""', re.sub(r'\(\*.*?\*\)', '', text, flags=re.S))


# the counted operations
PRIM = {
    'rd': 'Definition rd_c (E A : Type) : Type := comp (counted rs) E A.',
    'refill': 'Definition refill_c {E} : rd_c E unit := op 1 (refill B).',
    'lookahead_bits': 'Definition lookahead_bits_c {E} : rd_c E Z := op 1 lookahead_bits.',
    'read_bits': 'Definition read_bits_c (n : nat) : rd_c unit Z := op 1 (read_bits B n).',
    'peek_and_consume': 'Definition peek_and_consume_c {E} (n : nat) : rd_c E Z := op 1 (peek_and_consume n).',
    'has_bits_remaining': 'Definition has_bits_remaining_c {E} (n : nat) : rd_c E bool := op 1 (has_bits_remaining n).',
    'unbuffered_at_least': 'Definition unbuffered_at_least_c {E} (n : nat) : rd_c E bool := op 1 (unbuffered_at_least n).',
    'read_bytes': '''Definition read_bytes_c (n : nat) : rd_c unit unit := fun s =>
  op (1 + Z.min (Z.of_nat n) (lenZ (buf (fst s)))) (read_bytes B n) s.''',
    'buf_slice': '''Definition buf_slice_c {E} (n : nat) : rd_c E (list byte) := fun s =>
  op (Z.min (Z.of_nat n) (lenZ (buf (fst s)))) (buf_slice n) s.''',
    'buf_len': 'Definition buf_len_c {E} : rd_c E Z := op 0 buf_len.',
    'fcomp': 'Definition fcomp_c (A : Type) : Type := comp (counted fstate) frame_error A.',
    'on_reader': '''Definition on_reader_c {E A} (m : rd_c E A) : comp (counted fstate) E A := fun s =>
  let '(o, (r, n)) := m (fs_r (fst s), snd s) in (o, (set_r r (fst s), n)).''',
    'actors_insert': 'Definition actors_insert_c (k : Z) (v : Z * cache_info) : fcomp_c unit := op 1 (actors_insert k v).',
    'actors_delete': 'Definition actors_delete_c (k : Z) : fcomp_c unit := op 1 (actors_delete k).',
    'actors_get': 'Definition actors_get_c (k : Z) : fcomp_c (option (Z * cache_info)) := op 1 (actors_get k).',
    'push_new': 'Definition push_new_c (a : new_actor) : fcomp_c unit := op 1 (push_new a).',
    'push_deleted': 'Definition push_deleted_c (a : Z) : fcomp_c unit := op 1 (push_deleted a).',
    'push_updated': 'Definition push_updated_c (a : updated_attribute) : fcomp_c unit := op 1 (push_updated a).',
    'finish_frame': 'Definition finish_frame_c (time delta : f32) : fcomp_c frame := op 1 (finish_frame time delta).',
    'frames_loop': '''Fixpoint frames_loop_c (fuel n : nat) (acc : list frame) (s : counted fstate)
  : outcome network_error (list frame) * Z :=
  match n with
  | O => (Ok (rev acc), snd s)
  | S n' =>
      if is_empty (fs_r (fst s)) then (Ok (rev acc), snd s)
      else
        match decode_frame_c fuel s with
        | (Ok None, s') => (Ok (rev acc), snd s')
        | (Ok (Some f), s') => frames_loop_c fuel n' (f :: acc) s'
        | (Err e, s') => (Err (NFrameError e ((frame_context_of ho F) (rev acc) (fst s'))), snd s')
        | (Panic p, s') => (Panic p, snd s')
        end
  end.''',
    'decode_frames': '''Definition decode_frames_c : outcome network_error (list frame) * Z :=
  frames_loop_c (loop_fuel F) (Z.to_nat (fd_frames_len F)) []
    (mkFState (reader_new (fd_network_data F) (repeat x00 1024)) (seg_new 200) [] [] [], 0).''',
}

pieces = {f: sentences(open(os.path.join(T, f + '.v')).read()) for f in FILES}
DEF = re.compile(r'(Definition|Fixpoint)\s+(\w+)')
dep, changed = set(PRIM), True
while changed:
    changed = False
    for f in FILES:
        for _, s in pieces[f]:
            m = DEF.match(s)
            if m and m.group(2) not in dep and any(
                    re.search(r'(?<![\w."])%s\b' % d, strip(s)) for d in dep):
                dep.add(m.group(2))
                changed = True

uses = {}
for f in FILES:
    variables, lets = [], {}
    for _, s in pieces[f]:
        if s.startswith('Let '):
            lets[s.split()[1]] = [v for v in variables if re.search(r'\b%s\b' % v, s)]
        if s.startswith('Context'):
            variables += re.findall(r'\((\w+) :', s)
        elif s.startswith('End'):
            variables = []
        m = DEF.match(s)
        if m and variables:
            body = strip(s)
            used = [v for v in variables if re.search(r'\b%s\b' % v, body)]
            for let, vs in lets.items():
                if re.search(r'\b%s\b' % let, body):
                    used += vs
            for other, vs in uses.items():
                if re.search(r'\b%s\b' % other, body):
                    used += vs[1] if vs[0] == f else []
            uses[m.group(2)] = (f, [v for v in variables if v in used])


def rename(f, text):
    def sub(m):
        w = m.group(0)
        if w in dep:
            return w + '_c'
        if w in uses and uses[w][0] == f and uses[w][1]:
            return '(%s %s)' % (w, ' '.join(uses[w][1]))
        return w
    parts = re.split(r'("[^"]*")', text)
    return ''.join(p if p.startswith('"') else re.sub(r"(?<![\w'])[A-Za-z_]\w*(?![\w'])", sub, p) for p in parts)


out = ['''(** * The frame decoder with its operations counted

    Generated by tools/gen_cost.py from the model files.  Every definition of the
    model that works on the bit reader is repeated here with the suffix [_c] and a
    counter beside the state.  Each call of the bit reader counts as one, and one
    more for each byte copied by [read_bytes] and for each byte of the scratch buffer
    looked at; so does each operation on the table of actors and each record pushed.
    Without the counter the copies are the originals (CostProofs.v). *)

From Coq Require Import ZArith List Bool.
From Verif Require Import Base F32 Text NetTypes SegArray Errors BitReader NetModels Attributes Data ObjectIndex FrameDecoder.
Open Scope Z_scope.

(** a state and a counter; there is no such thing in the code, network/frame_decoder.rs:346-414 *)
Definition counted (S : Type) : Type := S * Z.
(** an operation of cost [k], e.g. network/frame_decoder.rs:210 *)
Definition op {S E A} (k : Z) (m : comp S E A) : comp (counted S) E A := fun s =>
  let '(o, s') := m (fst s) in (o, (s', snd s + k)).
''']
for f in FILES:
    out.append('(** ** %s.v *)\n' % f)
    for c, s in pieces[f]:
        m = DEF.match(s)
        if s.startswith('Section'):
            out.append(s.replace('.', 'C.'))
        elif s.startswith('End'):
            out.append(s.replace('.', 'C.') + '\n')
        elif s.startswith('Context') or s.startswith('Let '):
            out.append(s + '\n')
        elif m and m.group(2) in PRIM:
            out.append(c + '\n' + PRIM[m.group(2)] + '\n')
        elif m and m.group(2) in dep and m.group(2) not in ('is_empty', 'reader_new'):
            out.append(c + '\n' + rename(f, s) + '\n')
open(os.path.join(T, 'Cost.v'), 'w').write('\n'.join(out) + '\n')
print('copied %d definitions' % len(dep))
