#!/usr/bin/env python3
"""Generate rocq/theories/SpecSchemaNet.v (the schemas of the types of
/repo/src/network) and SchemaProofs.v, from the Rust declarations."""
import os
here = os.path.dirname(os.path.abspath(__file__))
src = open(os.path.join(here, 'gen_json.py')).read()
g = {}
exec(src[:src.index("out = []")], g)
codec, decl, ORDER, STRUCTS, ENUMS = (g[k] for k in ('codec', 'decl', 'ORDER', 'STRUCTS', 'ENUMS'))
THEORIES = os.path.join(here, '..', 'rocq', 'theories')

PRIM = {'bool': 'SBool', 'f32': 'SFloat', 'str': 'SText',
        'u8': 'SInt 0 (2 ^ 8 - 1)', 'u16': 'SInt 0 (2 ^ 16 - 1)', 'u32': 'SInt 0 (2 ^ 32 - 1)',
        'i8': 'SInt (- 2 ^ 7) (2 ^ 7 - 1)', 'i32': 'SInt (- 2 ^ 31) (2 ^ 31 - 1)',
        'u64s': 'SDecimal false 0 (2 ^ 64 - 1)', 'i64s': 'SDecimal true (- 2 ^ 63) (2 ^ 63 - 1)',
        'bytes': 'SList (SInt 0 (2 ^ 8 - 1))'}


def schema(c, par=True):
    if isinstance(c, str):
        s = PRIM.get(c, 'schema_' + c)
    elif c[0] == 'arr3':
        s = 'STuple [%s]' % '; '.join([schema(c[1], False)] * 3)
    else:
        s = {'opt': 'SOption ', 'vec': 'SList '}[c[0]] + schema(c[1])
    return '(%s)' % s if par and ' ' in s else s


def struct(items):
    return 'SStruct\n   [%s]' % ';\n    '.join('(lit "%s", %s)' % (n, schema(codec(ty, w), False)) for (n, (ty, w)) in items)


spec = ['''(** * Specification: schemas of the network types

    Generated by /verif/tools/gen_schema.py from the type declarations of
    /repo/src/network. *)

From Coq Require Import ZArith List.
From Verif Require Import Base SpecSchema.
Open Scope Z_scope.
''']
proof = ['''(** * Proofs: the readers accept what the schemas describe

    Generated by /verif/tools/gen_schema.py; the tactics are in SchemaLogic.v. *)

From Coq Require Import ZArith List.
From Verif Require Import Base NetTypes Json JsonNet SpecSchema SpecSchemaNet SpecJson SchemaLogic.
''']
typed = open(os.path.join(THEORIES, 'SpecJson.v')).read()
for name in ORDER:
    kind, fn, line, end, items = decl[name]
    if kind == 'struct':
        ty = STRUCTS[name][0]
        spec.append('Definition schema_%s : schema := %s.\n' % (ty, struct(items)))
    else:
        ty = ENUMS[name][0]
        units = ['lit "%s"' % v for (v, a, _) in items if not a]
        vs = []
        for (v, args, w64) in items:
            if not args:
                continue
            if len(args) == 1 and args[0] in STRUCTS and STRUCTS[args[0]][0] is None:
                s = struct(decl[args[0]][4]).replace('\n', '\n   ')
            elif len(args) == 1:
                s = schema(codec(args[0], w64), False)
            else:
                s = 'STuple [%s]' % '; '.join(schema(codec(a), False) for a in args)
            vs.append('(lit "%s", %s)' % (v, s))
        spec.append('Definition schema_%s : schema := SEnum [%s]\n   [%s].\n' % (ty, '; '.join(units), ';\n    '.join(vs)))
    proof.append('Lemma fits_%s : fits de_%s schema_%s.\nProof. fits_%s de_%s schema_%s. Qed.' % (ty, ty, ty, kind, ty, ty))
    proof.append('#[global] Hint Resolve fits_%s : fits.' % ty)
    proof.append('Lemma order_%s : ordered de_%s.\nProof. order_%s de_%s. Qed.' % (ty, ty, kind, ty))
    proof.append('#[global] Hint Resolve order_%s : order.' % ty)
    if 'Definition typed_%s ' % ty in typed:
        proof.append('Lemma gives_%s : gives de_%s typed_%s.\nProof. gives_%s de_%s typed_%s. Qed.' % (ty, ty, ty, kind, ty, ty))
        proof.append('#[global] Hint Resolve gives_%s : gives.' % ty)
    proof.append('')
open(os.path.join(THEORIES, 'SpecSchemaNet.v'), 'w').write('\n'.join(spec))
open(os.path.join(THEORIES, 'SchemaProofs.v'), 'w').write('\n'.join(proof))
