#!/usr/bin/env python3
"""Generate rocq/theories/JsonNet.v: the serde code that #[derive(Serialize,
Deserialize)] produces for the types of /repo/src/network, read from the Rust
declarations."""
import re, sys

# Rust type -> (Coq type, Coq constructor of the struct)
STRUCTS = {
 'Vector3f': ('vector3f', 'mkV3f'), 'Vector3i': ('vector3i', 'mkV3i'),
 'Quaternion': ('quaternion', 'mkQuat'), 'Rotation': ('rotation', 'mkRot'),
 'Trajectory': ('trajectory', 'mkTraj'), 'NewActor': ('new_actor', 'mkNew'),
 'ActiveActor': ('active_actor', 'mkActive'), 'CamSettings': ('cam_settings', 'mkCam'),
 'ClubColors': ('club_colors', 'mkClub'), 'AppliedDamage': ('applied_damage', 'mkApplied'),
 'DamageState': ('damage_state', 'mkDamage'), 'Demolish': ('demolish', 'mkDemolish'),
 'DemolishExtended': ('demolish_extended', 'mkDemolishExt'),
 'DemolishFx': ('demolish_fx', 'mkDemolishFx'), 'Explosion': ('explosion', 'mkExplosion'),
 'ExtendedExplosion': ('extended_explosion', 'mkExtExplosion'), 'Loadout': ('loadout', 'mkLoadout'),
 'TeamLoadout': ('team_loadout', 'mkTeamLoadout'), 'StatEvent': ('stat_event', 'mkStat'),
 'MusicStinger': ('music_stinger', 'mkStinger'), 'Pickup': ('pickup', 'mkPickup'),
 'PickupNew': ('pickup_new', 'mkPickupNew'), 'Welded': ('welded', 'mkWelded'),
 'TeamPaint': ('team_paint', 'mkTeamPaint'), 'RigidBody': ('rigid_body', 'mkRigid'),
 'PsyNetId': (None, 'RPsyNet'), 'SwitchId': (None, 'RSwitch'), 'Ps4Id': (None, 'RPlayStation'),
 'UniqueId': ('unique_id', 'mkUniqueId'), 'Reservation': ('reservation', 'mkReservation'),
 'PrivateMatchSettings': ('private_match', 'mkPrivateMatch'), 'Product': ('product', 'mkProduct'),
 'LoadoutsOnline': ('loadouts_online', 'mkLoadoutsOnline'), 'RepStatTitle': ('rep_stat_title', 'mkRepStat'),
 'PickupInfo': ('pickup_info', 'mkPickupInfo'), 'Impulse': ('impulse', 'mkImpulse'),
 'ReplicatedBoost': ('replicated_boost', 'mkBoost'), 'LogoData': ('logo_data', 'mkLogo'),
 'UpdatedAttribute': ('updated_attribute', 'mkUpdated'), 'Frame': ('frame', 'mkFrame'),
}
ENUMS = {'RemoteId': ('remote_id', 'R'), 'ProductValue': ('product_value', 'PV'), 'Attribute': ('attribute', 'A')}
PRIM = {'bool': 'bool', 'u8': 'u8', 'u16': 'u16', 'u32': 'u32', 'i32': 'i32', 'i8': 'i8',
        'f32': 'f32', 'String': 'str', 'ActorId': 'i32', 'ObjectId': 'i32', 'StreamId': 'i32'}
ORDER = ['Vector3f','Vector3i','Quaternion','Rotation','Trajectory','NewActor','ActiveActor','CamSettings',
 'ClubColors','AppliedDamage','DamageState','Demolish','DemolishExtended','DemolishFx','Explosion',
 'ExtendedExplosion','Loadout','TeamLoadout','StatEvent','MusicStinger','Pickup','PickupNew','Welded',
 'TeamPaint','RigidBody','RemoteId','UniqueId','Reservation','PrivateMatchSettings','ProductValue','Product',
 'LoadoutsOnline','RepStatTitle','PickupInfo','Impulse','ReplicatedBoost','LogoData','Attribute',
 'UpdatedAttribute','Frame']

def codec(ty, w64=None):
    ty = ty.strip()
    if w64: return {'i64': 'i64s', 'u64': 'u64s'}[ty]
    if ty in PRIM: return PRIM[ty]
    if ty == 'Vec<u8>': return 'bytes'
    m = re.fullmatch(r'Box<(.*)>', ty)
    if m: return codec(m.group(1))
    m = re.fullmatch(r'(Option|Vec)<(.*)>', ty)
    if m: return ('opt' if m.group(1) == 'Option' else 'vec', codec(m.group(2)))
    m = re.fullmatch(r'\[(.*); 3\]', ty)
    if m: return ('arr3', codec(m.group(1)))
    if ty in STRUCTS: return STRUCTS[ty][0]
    if ty in ENUMS: return ENUMS[ty][0]
    raise Exception(ty)

def ap(prefix, c):
    if isinstance(c, str): return f'{prefix}_{c}'
    return f'({prefix}_{c[0]} {ap(prefix, c[1])})'

files = {'attributes.rs': open('/repo/src/network/attributes.rs').read(),
         'models.rs(network)': open('/repo/src/network/models.rs').read()}
decl = {}
for fn, src in files.items():
    for m in re.finditer(r'^pub struct (\w+) \{\n(.*?)^\}', src, re.S | re.M):
        line = src[:m.start()].count('\n') + 1
        end = src[:m.end()].count('\n') + 1
        body = re.sub(r'//[^\n]*', '', m.group(2))
        fields = []
        for fm in re.finditer(r'((?:#\[serde\([^\]]*\)\]\s*)?)pub (\w+): ([^\n]+?),[ ]*\n', body + '\n'):
            fields.append((fm.group(2), codec_arg := (fm.group(3), bool(fm.group(1).strip()))))
        decl[m.group(1)] = ('struct', fn, line, end, fields)
    for m in re.finditer(r'^pub enum (\w+) \{\n(.*?)^\}', src, re.S | re.M):
        if m.group(1) not in ENUMS: continue
        line = src[:m.start()].count('\n') + 1
        end = src[:m.end()].count('\n') + 1
        body = re.sub(r'//[^\n]*', '', m.group(2))
        vs = []
        for vm in re.finditer(r'((?:#\[serde\([^\]]*\)\]\s*)?)(\w+)(?:\(([^\n]*)\))?,\n', body):
            args = []
            if vm.group(3):
                depth = 0; cur = ''
                for ch in vm.group(3):
                    if ch in '<[(': depth += 1
                    if ch in '>])': depth -= 1
                    if ch == ',' and depth == 0: args.append(cur); cur = ''
                    else: cur += ch
                args.append(cur)
            vs.append((vm.group(2), [a.strip() for a in args], bool(vm.group(1).strip())))
        decl[m.group(1)] = ('enum', fn, line, end, vs)

out = []
w = out.append
w('''(** * serde code of the network types

    Generated by /verif/tools/gen_json.py from the type declarations of
    /repo/src/network: for every type the [Serialize] and [Deserialize]
    implementations that [#[derive(..)]] produces, in terms of Json.v. *)

From Coq Require Import ZArith List.
From Verif Require Import Base F32 NetTypes Json.
''')

def struct_ser(con, fields, vars_):
    parts = []
    i = 0
    for (name, (ty, w64)) in fields:
        c = codec(ty, w64)
        if not isinstance(c, str) and c[0] == 'arr3':
            parts.append(f'(lit "{name}", JArr [{"; ".join(ap("ser", c[1]) + " " + v for v in vars_[i:i+3])}])'); i += 3
        else:
            parts.append(f'(lit "{name}", {ap("ser", c)} {vars_[i]})'); i += 1
    return 'JObj [' + ';\n        '.join(parts) + ']'

def struct_vars(fields):
    vs = []
    for i, (name, (ty, w64)) in enumerate(fields):
        c = codec(ty, w64)
        if not isinstance(c, str) and c[0] == 'arr3': vs += [f'fv{i}_{k}' for k in range(3)]
        else: vs.append(f'fv{i}')
    return vs

def struct_de(con, fields, vars_, j):
    names = '; '.join(f'lit "{name}"' for (name, _) in fields)
    s = f'de_fields [{names}] {j} (fun fs =>\n'
    i = 0
    for (name, (ty, w64)) in fields:
        c = codec(ty, w64)
        if not isinstance(c, str) and c[0] == 'opt':
            s += f'    need_opt_field (lit "{name}") {ap("de", c[1])} fs (fun {vars_[i]} =>\n'; i += 1
        elif not isinstance(c, str) and c[0] == 'arr3':
            s += f'    need_field (lit "{name}") (de_arr3 {ap("de", c[1])}) fs (fun y => let \'({vars_[i]}, {vars_[i+1]}, {vars_[i+2]}) := y in\n'; i += 3
        else:
            s += f'    need_field (lit "{name}") {ap("de", c)} fs (fun {vars_[i]} =>\n'; i += 1
    s += f'    Some ({con} {" ".join(vars_)})' + ')' * (len(fields) + 1)
    return s

for name in ORDER:
    kind, fn, line, end, items = decl[name]
    if kind == 'struct':
        ty, con = STRUCTS[name]
        vs = struct_vars(items)
        w(f'(** {fn}:{line}-{end} *)')
        w(f'Definition ser_{ty} (v : {ty}) : json :=\n  match v with\n  | {con} {" ".join(vs)} =>\n      {struct_ser(con, items, vs)}\n  end.')
        w(f'(** {fn}:{line}-{end} *)')
        w(f'Definition de_{ty} (j : json) : option {ty} :=\n  {struct_de(con, items, vs, "j")}.\n')
    else:
        ty, pre = ENUMS[name]
        w(f'(** {fn}:{line}-{end} *)')
        w(f'Definition ser_{ty} (v : {ty}) : json :=\n  match v with')
        for (v, args, w64) in items:
            con = pre + v
            if not args:
                w(f'  | {con} => JStr (lit "{v}")')
            elif len(args) == 1 and args[0] in STRUCTS and STRUCTS[args[0]][0] is None:
                fields = decl[args[0]][4]
                vs = struct_vars(fields)
                w(f'  | {con} {" ".join(vs)} => JObj [(lit "{v}", {struct_ser(con, fields, vs)})]')
            elif len(args) == 1:
                w(f'  | {con} x => JObj [(lit "{v}", {ap("ser", codec(args[0], w64))} x)]')
            else:
                vs = [f'fv{i}' for i in range(len(args))]
                w(f'  | {con} {" ".join(vs)} => JObj [(lit "{v}", JArr [{"; ".join(ap("ser", codec(a)) + " " + x for a, x in zip(args, vs))}])]')
        w('  end.')
        w(f'(** {fn}:{line}-{end} *)')
        w(f'Definition de_{ty} (j : json) : option {ty} :=\n  match j with')
        units = [v for (v, a, _) in items if not a]
        if units:
            w('  | JStr s =>')
            s = '      '
            for v in units: s += f'if str_eqb s (lit "{v}") then Some {pre}{v} else '
            w(s + 'None')
        w('  | JObj [(k, p)] =>')
        for (v, args, w64) in items:
            con = pre + v
            w(f'      if str_eqb k (lit "{v}") then')
            if not args:
                w(f'        (match p with JNull => Some {con} | _ => None end) else')
            elif len(args) == 1 and args[0] in STRUCTS and STRUCTS[args[0]][0] is None:
                fields = decl[args[0]][4]
                vs = struct_vars(fields)
                w(f'        ({struct_de(con, fields, vs, "p")}) else')
            elif len(args) == 1:
                w(f'        option_map {con} ({ap("de", codec(args[0], w64))} p) else')
            else:
                vs = [f'fv{i}' for i in range(len(args))]
                s = f'        (match p with JArr [{"; ".join("j" + x for x in vs)}] =>\n'
                for a, x in zip(args, vs):
                    s += f'          match {ap("de", codec(a))} j{x} with None => None | Some {x} =>\n'
                s += f'          Some ({con} {" ".join(vs)})' + ' end' * len(args) + '\n          | _ => None end) else'
                w(s)
        w('      None')
        w('  | _ => None\n  end.\n')
open(sys.argv[1] if len(sys.argv) > 1 else '/verif/rocq/theories/JsonNet.v', 'w').write('\n'.join(out))

# ---- SpecJson.v: values of the Rust types, and the floats in them ----

WIDTH = {'u8': 'is_u8', 'u16': 'is_u16', 'u32': 'is_u32', 'i32': 'is_i32', 'i8': 'is_i8', 'u64s': 'is_u64', 'i64s': 'is_i64'}
PLAIN = {'bool', 'str', 'bytes', 'f32'}

def par(t): return f'({t})' if ' ' in t else t

def typed(c):
    """predicate that a value inhabits the Rust type; None if always"""
    if isinstance(c, str):
        if c in PLAIN: return None
        if c in WIDTH: return WIDTH[c]
        return f'typed_{c}' if has_typed.get(c) else None
    t = typed(c[1])
    return t and f'all_{c[0]} {par(t)}'

def floats(c):
    """the floats of a value; None if there are none"""
    if isinstance(c, str):
        if c == 'f32': return 'one_float'
        if c in PLAIN or c in WIDTH: return None
        return f'floats_{c}' if has_floats.get(c) else None
    t = floats(c[1])
    return t and f'{c[0]}_floats {par(t)}'

has_typed, has_floats = {}, {}
spec, proofs = [], []
sw, pw = spec.append, proofs.append
sw('''(** * Specification: values of the Rust types of the network data

    Generated by /verif/tools/gen_json.py from the type declarations of
    /repo/src/network.  [typed_x v]: the integers in [v] are within their Rust
    types.  [floats_x v]: all [f32] in [v]. *)

From Coq Require Import ZArith List.
From Verif Require Import Base F32 NetTypes SpecBasic SpecFacts.
Open Scope Z_scope.

Definition is_u8 (x : Z) : Prop := 0 <= x < 2 ^ 8.
Definition is_u16 (x : Z) : Prop := 0 <= x < 2 ^ 16.
Definition is_u32 (x : Z) : Prop := 0 <= x < 2 ^ 32.
Definition is_u64 (x : Z) : Prop := 0 <= x < 2 ^ 64.
Definition is_i8 (x : Z) : Prop := - 2 ^ 7 <= x < 2 ^ 7.
Definition is_i64 (x : Z) : Prop := - 2 ^ 63 <= x < 2 ^ 63.
Definition all_opt {A} (P : A -> Prop) (o : option A) : Prop := match o with Some x => P x | None => True end.
Definition all_vec {A} (P : A -> Prop) (l : list A) : Prop := Forall P l.

(** neither infinite nor not a number *)
Definition finite (x : f32) : Prop := f32_scaled x <> None.
Definition one_float (x : f32) : list f32 := [x].
Definition opt_floats {A} (f : A -> list f32) (o : option A) : list f32 :=
  match o with Some x => f x | None => [] end.
Definition vec_floats {A} (f : A -> list f32) (l : list A) : list f32 := flat_map f l.
''')
pw('''(** * Proofs: the network types through serde

    Generated by /verif/tools/gen_json.py; the tactics are in JsonLogic.v. *)

From Coq Require Import ZArith List.
From Verif Require Import Base F32 NetTypes Json JsonNet SpecBasic SpecFacts SpecJson JsonLogic.
''')

def conj(parts): return ' /\\ '.join(parts) if parts else 'True'
def cat(parts): return ' ++ '.join(parts) if parts else '[]'

def field_parts(fields):
    vs = struct_vars(fields); t = []; f = []; i = 0; u = set()
    for (name, (ty, w64)) in fields:
        c = codec(ty, w64)
        if not isinstance(c, str) and c[0] == 'arr3':
            for v in vs[i:i+3]:
                if typed(c[1]): t.append(f'{typed(c[1])} {v}'); u.add(v)
                if floats(c[1]): f.append(f'{floats(c[1])} {v}'); u.add(v)
            i += 3
        else:
            if typed(c): t.append(f'{typed(c)} {vs[i]}')
            if floats(c): f.append(f'{floats(c)} {vs[i]}')
            i += 1
    return vs, t, f

def used(vs, parts):
    words = set(re.findall(r'\w+', ' '.join(parts)))
    return [v if v in words else '_' for v in vs]

for name in ORDER:
    kind, fn, line, end, items = decl[name]
    cases = []
    if kind == 'struct':
        ty, con = STRUCTS[name]
        cases.append((con,) + field_parts(items))
    else:
        ty, pre = ENUMS[name]
        for (v, args, w64) in items:
            con = pre + v
            if not args: cases.append((con, [], [], []))
            elif len(args) == 1 and args[0] in STRUCTS and STRUCTS[args[0]][0] is None:
                cases.append((con,) + field_parts(decl[args[0]][4]))
            elif len(args) == 1:
                c = codec(args[0], w64)
                cases.append((con, ['x'], [f'{typed(c)} x'] if typed(c) else [], [f'{floats(c)} x'] if floats(c) else []))
            else:
                vs = [f'fv{i}' for i in range(len(args))]
                cs = [codec(a) for a in args]
                cases.append((con, vs, [f'{typed(c)} {v}' for c, v in zip(cs, vs) if typed(c)],
                              [f'{floats(c)} {v}' for c, v in zip(cs, vs) if floats(c)]))
    has_typed[ty] = any(t for (_, _, t, _) in cases)
    has_floats[ty] = any(f for (_, _, _, f) in cases)
    for (flag, nm, res, sel, join) in ((has_typed[ty], 'typed', 'Prop', 2, conj), (has_floats[ty], 'floats', 'list f32', 3, cat)):
        if not flag: continue
        sw(f'Definition {nm}_{ty} (v : {ty}) : {res} :=\n  match v with')
        for case in cases:
            con, vs = case[0], case[1]; parts = case[sel]
            sw(f'  | {con} {" ".join(used(vs, parts))}'.rstrip() + f' => {join(parts)}')
        sw('  end.')
    sw('')
    ht, hf = has_typed[ty], has_floats[ty]
    pw(f'Lemma rt_{ty} : round_trip ser_{ty} de_{ty} {"typed_" + ty if ht else "(fun _ => True)"} {"floats_" + ty if hf else "(fun _ => [])"}.')
    pw(f'Proof. rt_start de_{ty} ser_{ty}; rt_solve. Qed.')
    pw(f'#[global] Hint Resolve rt_{ty} : rt.\n')
open('/verif/rocq/theories/SpecJson.v', 'w').write('\n'.join(spec))
open('/verif/rocq/theories/JsonProofs.v', 'w').write('\n'.join(proofs))
