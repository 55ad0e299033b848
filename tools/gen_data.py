#!/usr/bin/env python3
"""Generate rocq/theories/Data.v from /repo/src/data.rs (tables only)."""
import re, sys
src = open('/repo/src/data.rs').read()
lines = src.split('\n')

def table(name):
    start = next(i for i, l in enumerate(lines) if 'static ' + name + ':' in l)
    end = next(i for i in range(start, len(lines)) if lines[i].rstrip() in ('];', '};'))
    return start + 1, end + 1, '\n'.join(lines[start + 1:end])

out = []
w = out.append
w('''(** * Static tables: model of /repo/src/data.rs

    Generated by /verif/tools/gen_data.py, entry by entry and in source order.
    A [phf::Map] is an association list; its keys are distinct (Proofs check
    it), so the order of entries is irrelevant. *)

From Coq Require Import List.
From Verif Require Import Base NetTypes.
Local Open Scope string_scope.
''')
s, e, body = table('SPAWN_STATS')
ent = re.findall(r'\(\s*"([^"]*)",\s*SpawnTrajectory::(\w+),?\s*\)', body)
w(f'(** data.rs:{s}-{e} *)\nDefinition SPAWN_STATS_src : list (string * spawn_trajectory) := [')
w(';\n'.join(f'  ("{k}", Sp{v})' for k, v in ent) + '\n].\n')
n1 = len(ent)
s, e, body = table('ATTRIBUTES')
ent = re.findall(r'"([^"]*)"\s*=>\s*AttributeTag::(\w+),', body)
assert len(ent) == body.count('=>')
w(f'(** data.rs:{s}-{e} *)\nDefinition ATTRIBUTES_src : list (string * attribute_tag) := [')
w(';\n'.join(f'  ("{k}", T{v})' for k, v in ent) + '\n].\n')
n2 = len(ent)
s, e, body = table('PARENT_CLASSES')
ent = re.findall(r'"([^"]*)"\s*=>\s*"([^"]*)",', body)
assert len(ent) == body.count('=>')
w(f'(** data.rs:{s}-{e} *)\nDefinition PARENT_CLASSES_src : list (string * string) := [')
w(';\n'.join(f'  ("{k}", "{v}")' for k, v in ent) + '\n].\n')
n3 = len(ent)
w('''(** The tables with their literals as UTF-8 byte strings: data.rs:3,
    data.rs:21 and data.rs:324. *)
Definition SPAWN_STATS : list (str * spawn_trajectory) :=
  map (fun kv => (lit (fst kv), snd kv)) SPAWN_STATS_src.
(** data.rs:21 *)
Definition ATTRIBUTES : list (str * attribute_tag) :=
  map (fun kv => (lit (fst kv), snd kv)) ATTRIBUTES_src.
(** data.rs:324 *)
Definition PARENT_CLASSES : list (str * str) :=
  map (fun kv => (lit (fst kv), lit (snd kv))) PARENT_CLASSES_src.''')
open(sys.argv[1] if len(sys.argv) > 1 else '/verif/rocq/theories/Data.v', 'w').write('\n'.join(out) + '\n')
print(n1, n2, n3)
