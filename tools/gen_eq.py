#!/usr/bin/env python3
"""Generate rocq/theories/EqNet.v (the comparisons that #[derive(PartialEq)]
produces for the types of /repo/src/network), SpecBlank.v (values with all
floats replaced) and EqNetProofs.v, from the Rust declarations."""
import os, sys
here = os.path.dirname(os.path.abspath(__file__))
src = open(os.path.join(here, 'gen_json.py')).read()
g = {}
exec(src[:src.index("out = []")], g)
codec, ap, decl, ORDER, STRUCTS, ENUMS = (g[k] for k in ('codec', 'ap', 'decl', 'ORDER', 'STRUCTS', 'ENUMS'))
THEORIES = os.path.join(here, '..', 'rocq', 'theories')

INTS = {'u8', 'u16', 'u32', 'i32', 'i8', 'u64s', 'i64s'}
floating = {}


def has_floats(c):
    if isinstance(c, str):
        return c == 'f32' or floating.get(c, False)
    return has_floats(c[1])


def eq(c):
    if isinstance(c, str):
        return 'Z.eqb' if c in INTS else {'bool': 'Bool.eqb', 'str': 'str_eqb', 'bytes': 'str_eqb', 'f32': 'f32_eq'}.get(c, 'eq_' + c)
    return '(eq_%s %s)' % (c[0], eq(c[1]))


def blank(c):
    if isinstance(c, str):
        return 'blank_f32' if c == 'f32' else 'blank_' + c
    return '(%s %s)' % ({'opt': 'option_map', 'vec': 'map'}[c[0]], blank(c[1]))


def fields_of(items):
    cs = []
    for (name, (ty, w64)) in items:
        c = codec(ty, w64)
        if not isinstance(c, str) and c[0] == 'arr3':
            cs += [c[1]] * 3
        else:
            cs.append(c)
    return cs


model = ['''(** * Comparison of the network types

    Generated by /verif/tools/gen_eq.py from the type declarations of
    /repo/src/network: for every type the comparison that
    [#[derive(PartialEq)]] produces. *)

From Coq Require Import ZArith List Bool.
From Verif Require Import Base F32 Text NetTypes.

(** [Option] of compared values. e.g. network/models.rs:344-347 *)
Definition eq_opt {A} (e : A -> A -> bool) (x y : option A) : bool :=
  match x, y with Some a, Some b => e a b | None, None => true | _, _ => false end.
(** [Vec] of compared values. e.g. network/models.rs:236-252 *)
Section EqVec.
Context {A : Type} (e : A -> A -> bool).
(** e.g. network/models.rs:236-252 *)
Fixpoint eq_vec (l m : list A) : bool :=
  match l, m with [], [] => true | a :: l', b :: m' => e a b && eq_vec l' m' | _, _ => false end.
End EqVec.
''']
spec = ['''(** * Specification: network values without their floats

    Generated by /verif/tools/gen_eq.py from the type declarations of
    /repo/src/network.  [blank_x v]: [v] with all [f32] replaced by one. *)

From Coq Require Import ZArith List.
From Verif Require Import Base F32 NetTypes SpecBasic.
Open Scope Z_scope.

Definition blank_f32 (x : f32) : f32 := 0.
''']
proof = ['''(** * Proofs: comparison of the network types

    Generated by /verif/tools/gen_eq.py; the tactics are in EqLogic.v. *)

From Coq Require Import ZArith List Bool.
From Verif Require Import Base F32 Text NetTypes EqNet SpecBasic SpecJson SpecEq SpecBlank EqLogic.
''']

for name in ORDER:
    kind, fn, line, end, items = decl[name]
    if kind == 'struct':
        ty, con = STRUCTS[name]
        cases = [(con, fields_of(items))]
    else:
        ty, pre = ENUMS[name]
        cases = []
        for (v, args, w64) in items:
            if len(args) == 1 and args[0] in STRUCTS and STRUCTS[args[0]][0] is None:
                cases.append((pre + v, fields_of(decl[args[0]][4])))
            else:
                cases.append((pre + v, [codec(a, w64) for a in args]))
    floating[ty] = any(has_floats(c) for _, cs in cases for c in cs)
    where = fn.replace('models.rs(network)', 'network/models.rs').replace('attributes.rs', 'network/attributes.rs')
    model.append('(** %s:%d-%d *)' % (where, line, end))
    model.append('Definition eq_%s (v w : %s) : bool :=\n  match v, w with' % (ty, ty))
    for con, cs in cases:
        xs = ['a%d' % i for i in range(len(cs))]
        ys = ['b%d' % i for i in range(len(cs))]
        body = ' && '.join('%s %s %s' % (eq(c), x, y) for c, x, y in zip(cs, xs, ys)) or 'true'
        model.append('  | %s, %s => %s' % (' '.join([con] + xs), ' '.join([con] + ys), body))
    if len(cases) > 1:
        model.append('  | _, _ => false')
    model.append('  end.\n')
    if floating[ty]:
        spec.append('Definition blank_%s (v : %s) : %s :=\n  match v with' % (ty, ty, ty))
        plain = False
        for con, cs in cases:
            if not any(has_floats(c) for c in cs):
                plain = True
                continue
            xs = ['a%d' % i for i in range(len(cs))]
            spec.append('  | %s => %s' % (' '.join([con] + xs), ' '.join([con] + ['(%s %s)' % (blank(c), x) if has_floats(c) else x for c, x in zip(cs, xs)])))
        if plain:
            spec.append('  | _ => v')
        spec.append('  end.\n')
        proof.append('Lemma eqs_%s : eqs eq_%s blank_%s floats_%s.\nProof. eqs_all eq_%s blank_%s floats_%s. Qed.' % ((ty,) * 7))
    else:
        proof.append('Lemma eqs_%s : exact eq_%s.\nProof. exact_all eq_%s. Qed.' % ((ty,) * 3))
    proof.append('#[global] Hint Resolve eqs_%s : eqs.\n' % ty)

for f, l in (('EqNet', model), ('SpecBlank', spec), ('EqNetProofs', proof)):
    open(os.path.join(THEORIES, f + '.v'), 'w').write('\n'.join(l))
