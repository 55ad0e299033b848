#!/usr/bin/env python3
"""Writes rocq/theories/RepoData.v (bytes of files in /repo/assets) for RepoTests.v."""
import os
R = "/repo/assets/replays/"
def rd(p): return open(R + p, "rb").read()
out = []
def lst(b):
    lines, cur = [], "  ["
    for i, x in enumerate(b):
        t = "x%02x" % x + ("; " if i + 1 < len(b) else "]")
        if len(cur) + len(t) > 100:
            lines.append(cur.rstrip()); cur = "   "
        cur += t
    lines.append(cur)
    return "\n".join(lines)
def d(name, src, b):
    out.append("(** %s *)\nDefinition %s : list byte :=\n%s.\n" % (src, name, lst(b)))
for n in ["rdict_one", "rdict_int", "rdict_bool", "rdict_name", "rdict_float", "rdict_qword", "rdict_array", "rdict_byte", "rdict_unrecognized", "text"]:
    d(n + "_data" if n != "text" else "text_data", "assets/replays/partial/%s.replay" % n, rd("partial/%s.replay" % n))
d("utf16_data", "assets/replays/partial/utf-16-text.replay", rd("partial/utf-16-text.replay"))
d("windows_1252_data", "bytes 0x1ad to 0x1c4 of assets/replays/partial/windows_1252.replay", rd("partial/windows_1252.replay")[0x1ad:0x1c4])
d("keyframe_data", "508 bytes from 0x12ca of assets/replays/good/rumble.replay", rd("good/rumble.replay")[0x12ca:0x12ca+508])
d("tickmark_data", "bytes 0xf6cce to 0xf6d50 of assets/replays/good/rumble.replay", rd("good/rumble.replay")[0xf6cce:0xf6d50])
d("slice_index", "assets/replays/bad/fuzz-slice-index.replay", rd("bad/fuzz-slice-index.replay"))
for n in ["no-frames", "6688"]:
    d("replay_" + n.replace("-", "_"), "assets/replays/good/%s.replay" % n, rd("good/%s.replay" % n))
p = os.path.join(os.path.dirname(os.path.abspath(__file__)), "..", "rocq", "theories", "RepoData.v")
open(p, "w").write("(** * Test data of the repository (written by tools/gen_repo_tests.py) *)\n\nFrom Coq Require Import List.\nFrom Verif Require Import Base.\n\n" + "\n".join(out))
