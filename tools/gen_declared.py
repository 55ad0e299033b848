#!/usr/bin/env python3
"""Write rocq/theories/SpecDeclared.v: the declarations of the types of a replay in
/repo/src as a table, and which values a declaration allows."""
import os, re
here = os.path.dirname(os.path.abspath(__file__))
REPO = '/repo/src/'


def split(s):
    """at the commas outside brackets"""
    out, depth, cur = [], 0, ''
    for ch in s:
        if ch in '([{<':
            depth += 1
        if ch in ')]}>':
            depth -= 1
        if ch == ',' and depth == 0:
            out.append(cur)
            cur = ''
        else:
            cur += ch
    return [x.strip() for x in out + [cur] if x.strip()]


def ty(t):
    t = t.strip()
    if t in ('u8', 'u16', 'u32', 'u64'):
        return '(Unsigned %s)' % t[1:]
    if t in ('i8', 'i32', 'i64'):
        return '(Signed %s)' % t[1:]
    if t in ('bool', 'f32', 'String'):
        return {'bool': 'Bool', 'f32': 'Float', 'String': 'Text'}[t]
    m = re.fullmatch(r'Vec<\(String, (.*)\)>', t)
    if m:
        return '(Entries %s)' % ty(m.group(1))
    m = re.fullmatch(r'(Option|Vec|Box)<(.*)>', t)
    if m:
        return ty(m.group(2)) if m.group(1) == 'Box' else '(%s %s)' % ({'Option': 'Optional', 'Vec': 'Many'}[m.group(1)], ty(m.group(2)))
    m = re.fullmatch(r'\[(.*); (\d+)\]', t)
    if m:
        return '(Exactly %s %s)' % (m.group(2), ty(m.group(1)))
    assert re.fullmatch(r'\w+', t), t
    return '(Named "%s")' % t


def clean(body):
    body = re.sub(r'//[^\n]*', '', body)
    return re.sub(r'#\[(?:[^\[\]]|\[[^\]]*\])*\]', '', body)


def fields(body):
    fs = [re.sub(r'^pub(\(crate\))? ', '', f).split(':', 1) for f in split(clean(body))]
    return '; '.join('("%s", %s)' % (k.strip(), ty(v)) for k, v in fs)


out = []
for name in ('models.rs', 'network/models.rs', 'network/attributes.rs'):
    text = open(REPO + name).read()
    for m in re.finditer(r'^pub (struct|enum) (\w+)(?: \{(.*?)^\}|\(([^;]*)\);)', text, re.M | re.S):
        kind, typ, body, tup = m.groups()
        if typ in ('AttributeTag', 'SpawnTrajectory') or typ.endswith('Decoder'):
            continue
        line = text[:m.start()].count('\n') + 1
        end = text[:m.end()].count('\n') + 1
        cite = '(* %s:%d-%d *)' % (name, line, end)
        if tup is not None:
            out.append('  ("%s", Newtype %s); %s' % (typ, ty(re.sub(r'pub(\(crate\))? ', '', clean(tup))), cite))
        elif kind == 'struct':
            out.append('  ("%s", Struct [%s]); %s' % (typ, fields(body), cite))
        else:
            vs = []
            for v in split(clean(body)):
                w = re.fullmatch(r'(\w+)\s*(?:\((.*)\)|\{(.*)\})?', v, re.S)
                if w.group(3):
                    vs.append('("%s", Fields [%s])' % (w.group(1), fields(w.group(3))))
                else:
                    vs.append('("%s", Values [%s])' % (w.group(1), '; '.join(ty(a) for a in split(w.group(2) or ''))))
            # HeaderProp is the one type with a hand-written Serialize
            out.append('  ("%s", %s [%s]); %s' % (typ, 'Untagged' if 'impl Serialize for %s ' % typ in text else 'Enum', ';\n    '.join(vs), cite))

out[-1] = re.sub(r'\); \(\*', ') (*', out[-1])
HEAD = '''(** * Specification: the declared types of a replay

    Written by /verif/tools/gen_declared.py: the declarations of /repo/src/models.rs and
    /repo/src/network as a table, and which values a declaration allows. *)

From Coq Require Import ZArith List String.
From Verif Require Import Base F32 Json Debug SpecBasic SpecDecimal SpecJson.
Import ListNotations.
Open Scope Z_scope.

Inductive type :=
| Bool | Float | Text
| Unsigned (bits : Z) | Signed (bits : Z)
| Optional (t : type) | Many (t : type) | Exactly (n : nat) (t : type)
| Entries (t : type)   (** pairs of a text and a value *)
| Named (name : string).

Inductive variant :=
| Values (l : list type)
| Fields (l : list (string * type)).

Inductive declaration :=
| Newtype (t : type)
| Struct (fields : list (string * type))
| Enum (variants : list (string * variant))
| Untagged (variants : list (string * variant)).   (** in JSON without the name of the variant *)

Definition declared : list (string * declaration) := [
'''
TAIL = '''
]%string.

(** [describes t d j]: [d], for [Debug], and [j], in JSON, show the same value of type
    [t] *)
Inductive describes : type -> dbg -> json -> Prop :=
| de_bool b : describes Bool (DBool b) (JBool b)
| de_float x : finite x -> describes Float (DF32 x) (JF32 x)
| de_not_finite x : ~ finite x -> describes Float (DF32 x) JNull
| de_text s : describes Text (DStr s) (JStr s)
(** whole numbers of 64 bits are texts in JSON *)
| de_unsigned bits x : 0 <= x < 2 ^ bits -> bits < 64 -> describes (Unsigned bits) (DInt x) (JInt x)
| de_signed bits x : - 2 ^ (bits - 1) <= x < 2 ^ (bits - 1) -> bits < 64 -> describes (Signed bits) (DInt x) (JInt x)
| de_unsigned_text x s : 0 <= x < 2 ^ 64 -> decimal x s -> describes (Unsigned 64) (DInt x) (JStr s)
| de_signed_text x s : - 2 ^ 63 <= x < 2 ^ 63 -> decimal x s -> describes (Signed 64) (DInt x) (JStr s)
| de_none t : describes (Optional t) (DName (lit "None")) JNull
| de_some t d j : describes t d j -> describes (Optional t) (DTuple (lit "Some") [d]) j
| de_many t l m : Forall2 (describes t) l m -> describes (Many t) (DList l) (JArr m)
| de_exactly n t l m : length l = n -> Forall2 (describes t) l m -> describes (Exactly n t) (DList l) (JArr m)
| de_entries t l m : Forall2 (fun a b => exists d, a = DTuple [] [DStr (fst b); d] /\\ describes t d (snd b)) l m ->
    describes (Entries t) (DList l) (JObj m)
| de_newtype n t d j : In (n, Newtype t) declared -> describes t d j -> describes (Named n) (DTuple (lit n) [d]) j
| de_struct n fs l m : In (n, Struct fs) declared -> describes_fields fs l m -> describes (Named n) (DStruct (lit n) l) (JObj m)
| de_unit n vs v : In (n, Enum vs) declared -> In (v, Values []) vs -> describes (Named n) (DName (lit v)) (JStr (lit v))
| de_variant n vs v t d j : In (n, Enum vs) declared -> In (v, Values [t]) vs -> describes t d j ->
    describes (Named n) (DTuple (lit v) [d]) (JObj [(lit v, j)])
| de_variants n vs v ts l m : In (n, Enum vs) declared -> In (v, Values ts) vs -> (2 <= length ts)%nat -> describes_all ts l m ->
    describes (Named n) (DTuple (lit v) l) (JObj [(lit v, JArr m)])
| de_untagged n vs v t d j : In (n, Untagged vs) declared -> In (v, Values [t]) vs -> describes t d j ->
    describes (Named n) (DTuple (lit v) [d]) j
| de_untagged_fields n vs v fs l m : In (n, Untagged vs) declared -> In (v, Fields fs) vs -> describes_fields fs l m ->
    describes (Named n) (DStruct (lit v) l) (JObj m)
with describes_all : list type -> list dbg -> list json -> Prop :=
| da_nil : describes_all [] [] []
| da_cons t d j ts l m : describes t d j -> describes_all ts l m -> describes_all (t :: ts) (d :: l) (j :: m)
(** in the order of the declaration *)
with describes_fields : list (string * type) -> list (str * dbg) -> list (str * json) -> Prop :=
| df_nil : describes_fields [] [] []
| df_cons k t d j fs l m : describes t d j -> describes_fields fs l m ->
    describes_fields ((k, t) :: fs) ((lit k, d) :: l) ((lit k, j) :: m).

(** ** Kinds *)

(** the variant that a kind of attribute is decoded to: the one of the same name, but
    for three; [newer]: of version 2.23 of the game or later *)
Definition variant_of (newer : bool) (kind : string) : string :=
  if String.eqb kind "QWordString" then if newer then "String" else "QWord"
  else if String.eqb kind "PrivateMatchSettings" then "PrivateMatch"
  else if String.eqb kind "RotationTag" then "Rotation"
  else kind.
'''
open(os.path.join(here, '..', 'rocq', 'theories', 'SpecDeclared.v'), 'w').write(HEAD + '\n'.join(out) + TAIL)
