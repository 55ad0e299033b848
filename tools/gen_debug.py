#!/usr/bin/env python3
"""Generate rocq/theories/DebugNet.v (what #[derive(Debug)] shows of the types of
/repo/src/network), SpecNan.v (values in which all NaN are one) and
DebugNetProofs.v, from the Rust declarations."""
import os, re
here = os.path.dirname(os.path.abspath(__file__))
src = open(os.path.join(here, 'gen_json.py')).read()
g = {}
exec(src[:src.index("out = []")], g)
decl, ORDER, STRUCTS, ENUMS = (g[k] for k in ('decl', 'ORDER', 'STRUCTS', 'ENUMS'))
THEORIES = os.path.join(here, '..', 'rocq', 'theories')
PRIM = {'bool': 'DBool', 'f32': 'DF32', 'String': 'DStr', 'u8': 'DInt', 'u16': 'DInt', 'u32': 'DInt', 'u64': 'DInt',
        'i8': 'DInt', 'i32': 'DInt', 'i64': 'DInt', 'ActorId': 'dbg_actor_id', 'ObjectId': 'dbg_object_id',
        'StreamId': 'dbg_stream_id'}
floating = {}


def kind(ty):
    """Coq function that shows a Rust type, and whether it contains floats"""
    ty = ty.strip()
    if ty in PRIM:
        return PRIM[ty], ty == 'f32'
    if ty == 'Vec<u8>':
        return 'dbg_bytes', False
    m = re.fullmatch(r'Box<(.*)>', ty)
    if m:
        return kind(m.group(1))
    m = re.fullmatch(r'(Option|Vec)<(.*)>', ty)
    if m:
        f, fl = kind(m.group(2))
        return '(dbg_%s %s)' % ({'Option': 'opt', 'Vec': 'vec'}[m.group(1)], f), fl
    t = (STRUCTS.get(ty) or ENUMS[ty])[0]
    return 'dbg_' + t, floating[t]


def nan(ty):
    ty = ty.strip()
    m = re.fullmatch(r'Box<(.*)>', ty)
    if m:
        return nan(m.group(1))
    m = re.fullmatch(r'(Option|Vec)<(.*)>', ty)
    if m:
        return '(%s %s)' % ({'Option': 'option_map', 'Vec': 'map'}[m.group(1)], nan(m.group(2)))
    return 'one_nan' if ty == 'f32' else 'one_nan_' + (STRUCTS.get(ty) or ENUMS[ty])[0]


def texts(ty):
    """Coq function giving the texts of a value, or None"""
    ty = ty.strip()
    if ty == 'String':
        return 'one_text'
    if ty in PRIM or ty == 'Vec<u8>':
        return None
    m = re.fullmatch(r'Box<(.*)>', ty)
    if m:
        return texts(m.group(1))
    m = re.fullmatch(r'(Option|Vec)<(.*)>', ty)
    if m:
        t = texts(m.group(2))
        return t and '(%s_texts %s)' % ({'Option': 'opt', 'Vec': 'vec'}[m.group(1)], t)
    t = (STRUCTS.get(ty) or ENUMS[ty])[0]
    return 'texts_' + t if worded[t] else None


worded = {}


def shows(items, xs):
    """the fields of a struct, and the variables and types used"""
    parts, flat, i = [], [], 0
    for (name, (ty, w64)) in items:
        m = re.fullmatch(r'\[(.*); 3\]', ty.strip())
        if m:
            f, fl = kind(m.group(1))
            parts.append('(lit "%s", DList [%s])' % (name, '; '.join('%s %s' % (f, x) for x in xs[i:i + 3])))
            flat += [m.group(1)] * 3
            i += 3
        else:
            f, fl = kind(ty)
            parts.append('(lit "%s", %s %s)' % (name, f, xs[i]))
            flat.append(ty)
            i += 1
    return '[' + ';\n        '.join(parts) + ']', flat


VARS = ['a%d' % i for i in range(20)]
model = ['''(** * [Debug] of the network types

    Generated by /verif/tools/gen_debug.py from the type declarations of
    /repo/src/network: for every type what [#[derive(Debug)]] shows. *)

From Coq Require Import ZArith List.
From Verif Require Import Base F32 NetTypes Debug.

(** [Option]. e.g. network/models.rs:344-347 *)
Definition dbg_opt {A} (f : A -> dbg) (o : option A) : dbg :=
  match o with Some x => DTuple (lit "Some") [f x] | None => DName (lit "None") end.
(** [Vec]. e.g. network/models.rs:236-252 *)
Definition dbg_vec {A} (f : A -> dbg) (l : list A) : dbg := DList (map f l).
(** [Vec<u8>]. e.g. network/attributes.rs:312 *)
Definition dbg_bytes (l : list byte) : dbg := DList (map (fun b => DInt (byteZ b)) l).
(** network/models.rs:257-260 *)
Definition dbg_object_id (x : Z) : dbg := DTuple (lit "ObjectId") [DInt x].
(** network/models.rs:283-284 *)
Definition dbg_stream_id (x : Z) : dbg := DTuple (lit "StreamId") [DInt x].
(** network/models.rs:306-307 *)
Definition dbg_actor_id (x : Z) : dbg := DTuple (lit "ActorId") [DInt x].
''']
spec = ['''(** * Specification: network values in which all that is not a number is the same,
    and the texts of network values

    Generated by /verif/tools/gen_debug.py from the type declarations of
    /repo/src/network.  [one_nan_x v]: [v] with all NaN replaced by one of them.
    [texts_x v]: all texts in [v]. *)

From Coq Require Import ZArith List.
From Verif Require Import Base F32 NetTypes SpecBasic.
Open Scope Z_scope.

(** exponent 255 and a fraction that is not zero *)
Definition one_nan (x : f32) : f32 := if 0x7f800000 <? x mod 2 ^ 31 then 0x7fc00000 else x.
Definition one_text (s : str) : list str := [s].
Definition opt_texts {A} (f : A -> list str) (o : option A) : list str := match o with Some x => f x | None => [] end.
Definition vec_texts {A} (f : A -> list str) (l : list A) : list str := flat_map f l.
''']
proof = ['''(** * Proofs: [Debug] of the network types

    Generated by /verif/tools/gen_debug.py; the tactics are in DebugLogic.v. *)

From Coq Require Import ZArith List Bool.
From Verif Require Import Base F32 NetTypes Debug DebugNet SpecBasic SpecJson SpecNan SpecDebug DebugLogic.
''']

for name in ORDER:
    what, fn, line, end, items = decl[name]
    if what == 'struct':
        ty, con = STRUCTS[name]
        body, flat = shows(items, VARS)
        cases = [(con, flat, 'DStruct (lit "%s")\n       %s' % (name, body))]
    else:
        ty, pre = ENUMS[name]
        cases = []
        for (v, args, w64) in items:
            if not args:
                cases.append((pre + v, [], 'DName (lit "%s")' % v))
            elif len(args) == 1 and args[0] in STRUCTS and STRUCTS[args[0]][0] is None:
                body, flat = shows(decl[args[0]][4], VARS)
                cases.append((pre + v, flat, 'DTuple (lit "%s") [DStruct (lit "%s") %s]' % (v, args[0], body)))
            else:
                cases.append((pre + v, args, 'DTuple (lit "%s") [%s]' % (v, '; '.join('%s %s' % (kind(a)[0], x) for a, x in zip(args, VARS)))))
    floating[ty] = any(kind(t)[1] for _, ts, _ in cases for t in ts)
    worded[ty] = any(texts(t) for _, ts, _ in cases for t in ts)
    where = fn.replace('models.rs(network)', 'network/models.rs').replace('attributes.rs', 'network/attributes.rs')
    model.append('(** %s:%d-%d *)' % (where, line, end))
    model.append('Definition dbg_%s (v : %s) : dbg :=\n  match v with' % (ty, ty))
    for con, ts, body in cases:
        model.append('  | %s => %s' % (' '.join([con] + VARS[:len(ts)]), body))
    model.append('  end.\n')
    if floating[ty]:
        spec.append('Definition one_nan_%s (v : %s) : %s :=\n  match v with' % (ty, ty, ty))
        plain = False
        for con, ts, _ in cases:
            if not any(kind(t)[1] for t in ts):
                plain = True
                continue
            spec.append('  | %s => %s' % (' '.join([con] + VARS[:len(ts)]), ' '.join([con] + ['(%s %s)' % (nan(t), x) if kind(t)[1] else x for t, x in zip(ts, VARS)])))
        if plain:
            spec.append('  | _ => v')
        spec.append('  end.\n')
    if worded[ty]:
        spec.append('Definition texts_%s (v : %s) : list str :=\n  match v with' % (ty, ty))
        plain = False
        for con, ts, _ in cases:
            if not any(texts(t) for t in ts):
                plain = True
                continue
            spec.append('  | %s => %s' % (' '.join([con] + [x if texts(t) else '_' for t, x in zip(ts, VARS)]), ' ++ '.join('%s %s' % (texts(t), x) for t, x in zip(ts, VARS) if texts(t))))
        if plain:
            spec.append('  | _ => []')
        spec.append('  end.\n')
    n = 'one_nan_' + ty if floating[ty] else '(fun v => v)'
    fl = 'floats_' + ty if floating[ty] else 'no_floats'
    tx = 'texts_' + ty if worded[ty] else 'no_texts'
    proof.append('Lemma inj_%s : inj dbg_%s.\nProof. dbg_inj dbg_%s. Qed.' % (ty, ty, ty))
    proof.append('Lemma nan_%s : nans dbg_%s %s.\nProof. dbg_nan dbg_%s%s. Qed.' % (ty, ty, n, ty, ' one_nan_' + ty if floating[ty] else ' one_nan'))
    proof.append('Lemma ok_%s : good dbg_%s %s %s.\nProof. intros a F T; destruct a; cbn [dbg_%s %s %s] in *; split_forall; parts. Qed.' % (ty, ty, fl, tx, ty, fl, tx))
    proof.append('#[export] Hint Resolve inj_%s nan_%s ok_%s : dbg.\n' % (ty, ty, ty))

for fn, lines in (('DebugNet.v', model), ('SpecNan.v', spec), ('DebugNetProofs.v', proof)):
    open(os.path.join(THEORIES, fn), 'w').write('\n'.join(lines))
