#!/usr/bin/env python3
"""Write rocq/theories/Samples.v and SamplesPlay.v: small replays used by the examples."""
import struct, os

POLY, INIT = 0x04C11DB7, 0x10340DFE


def crc(data):
    r = INIT
    for b in data:
        r ^= b << 24
        for _ in range(8):
            r = ((r << 1) ^ POLY) & 0xFFFFFFFF if r & 0x80000000 else (r << 1) & 0xFFFFFFFF
    return r ^ 0xFFFFFFFF


i32 = lambda x: struct.pack('<i', x)
u32 = lambda x: struct.pack('<I', x)
f32 = lambda x: struct.pack('<f', x)


def key(s):
    b = s.encode() + b'\0'
    return i32(len(b)) + b


text = key


def text16(s):
    b = (s + '\0').encode('utf-16-le')
    return i32(-(len(b) // 2)) + b


def lst(xs):
    return i32(len(xs)) + b''.join(xs)


def prop(name, kind, payload):
    return key(name) + key(kind) + bytes(range(8)) + payload


NONE = key('None')


class Bits:
    def __init__(self):
        self.l = []

    def put(self, n, x):
        self.l += [(x >> i) & 1 for i in range(n)]
        return self

    def limited(self, n, mx, x):
        """the format of read_bits_max_computed"""
        low = x % (1 << n)
        self.put(n, low)
        if low + (1 << n) < mx:
            self.put(1, 1 if x >= 1 << n else 0)
        return self

    def f(self, x):
        return self.put(32, struct.unpack('<I', f32(x))[0])

    def bytes(self):
        l = self.l + [0] * (-len(self.l) % 8)
        return bytes(sum(l[i + j] << j for j in range(8)) for i in range(0, len(l), 8))


def network():
    b = Bits()
    actor = lambda i: b.put(1, 1).limited(9, 1023, i)
    # frame 1: new ball, then its attribute bHidden
    b.f(1.0).f(0.25)
    actor(3).put(1, 1).put(1, 1).put(32, 0).put(1, 0).put(32, 4)
    b.limited(4, 20, 5)                       # vector: 7 bits each, bias 64
    b.put(7, 64 + 10).put(7, 64 - 20).put(7, 64 + 30)
    b.put(1, 1).put(8, 200).put(1, 0).put(1, 0)  # rotation
    actor(3).put(1, 1).put(1, 0).put(1, 1).limited(3, 11, 3).put(1, 1).put(1, 0)
    b.put(1, 0)
    # frame 2: the ball is deleted
    b.f(2.0).f(1.0)
    actor(3).put(1, 0)
    b.put(1, 0)
    b.put(32, 0)
    return b.bytes()


def odd_network(i):
    """the actor [i] is announced with a bad name id at no time, deleted, and updated"""
    b = Bits()
    actor = lambda: b.put(1, 1).limited(9, 1023, i)
    b.put(32, 0x7FC00000).put(32, 0x7F800000)
    actor().put(1, 1).put(1, 1).put(32, 77).put(1, 0).put(32, 4)
    b.limited(4, 20, 5)
    b.put(7, 64 + 10).put(7, 64 - 20).put(7, 64 + 30)
    b.put(1, 1).put(8, 200).put(1, 0).put(1, 0)
    b.put(1, 0)
    b.f(1.0).f(0.25)
    actor().put(1, 0)
    b.put(1, 0)
    b.f(2.0).f(1.0)
    actor().put(1, 1).put(1, 0).put(1, 1).limited(3, 11, 3).put(1, 1).put(1, 0)
    b.put(1, 0)
    return b.bytes()


def cam_network(last=0x7FC00000):
    """camera settings whose transition is not a number"""
    b = Bits()
    actor = lambda: b.put(1, 1).limited(9, 1023, 3)
    b.f(1.0).f(0.25)
    actor().put(1, 1).put(1, 1).put(32, 0).put(1, 0).put(32, 2)
    actor().put(1, 1).put(1, 0).put(1, 1).limited(1, 3, 2)
    for x in (110.0, 100.0, -4.0, 270.0, 0.5, 4.5):
        b.f(x)
    b.put(32, last).put(1, 0)
    b.put(1, 0)
    return b.bytes()


def swap_network():
    """the ball 300 is announced; then updated, deleted and announced as a camera, and another actor is updated"""
    b = Bits()
    actor = lambda i: b.put(1, 1).limited(9, 1023, i)
    b.f(1.0).f(0.25)
    actor(300).put(1, 1).put(1, 1).put(32, 0).put(1, 0).put(32, 4)
    b.limited(4, 20, 5)
    b.put(7, 64 + 10).put(7, 64 - 20).put(7, 64 + 30)
    b.put(1, 1).put(8, 200).put(1, 0).put(1, 0)
    b.put(1, 0)
    b.f(2.0).f(1.0)
    actor(300).put(1, 1).put(1, 0).put(1, 1).limited(3, 11, 3).put(1, 1).put(1, 0)
    actor(300).put(1, 0)
    actor(300).put(1, 1).put(1, 1).put(32, 0).put(1, 0).put(32, 8)
    b.limited(4, 20, 5)
    b.put(7, 64).put(7, 64).put(7, 64 + 1)
    actor(301).put(1, 1).put(1, 0)
    b.put(32, 0)
    return b.bytes()


def early_network():
    """the ball is announced and updated; the next frame has a negative time"""
    b = Bits()
    actor = lambda i: b.put(1, 1).limited(9, 1023, i)
    b.f(1.0).f(0.25)
    actor(3).put(1, 1).put(1, 1).put(32, 0).put(1, 0).put(32, 4)
    b.limited(4, 20, 5)
    b.put(7, 64 + 10).put(7, 64 - 20).put(7, 64 + 30)
    b.put(1, 1).put(8, 200).put(1, 0).put(1, 0)
    b.put(1, 0)
    b.f(-1.0).f(1.0)
    b.put(1, 0)
    return b.bytes()


def bad_network():
    """the ball is announced and its attribute with the stream id 4, which no class has, is updated"""
    b = Bits()
    actor = lambda i: b.put(1, 1).limited(9, 1023, i)
    b.f(1.0).f(0.25)
    actor(3).put(1, 1).put(1, 1).put(32, 0).put(1, 0).put(32, 4)
    b.limited(4, 20, 5)
    b.put(7, 64 + 10).put(7, 64 - 20).put(7, 64 + 30)
    b.put(1, 1).put(8, 200).put(1, 0).put(1, 0)
    actor(3).put(1, 1).put(1, 0).put(1, 1).limited(3, 11, 2)
    b.put(32, 0)
    return b.bytes()


def moving_network():
    """the ball is announced and moves; its velocities are missing"""
    b = Bits()
    actor = lambda i: b.put(1, 1).limited(9, 1023, i)
    b.f(1.0).f(0.25)
    actor(3).put(1, 1).put(1, 1).put(32, 0).put(1, 0).put(32, 4)
    b.limited(4, 20, 5)
    b.put(7, 64 + 10).put(7, 64 - 20).put(7, 64 + 30)
    b.put(1, 1).put(8, 200).put(1, 0).put(1, 0)
    actor(3).put(1, 1).put(1, 0).put(1, 1).limited(3, 11, 10).put(1, 0)
    b.limited(4, 20, 5)
    b.put(7, 64 + 10).put(7, 64 - 20).put(7, 64 + 30)
    b.put(16, 1000).put(16, 2000).put(16, 40000)
    assert len(b.l) % 8 in (4, 5, 6), len(b.l)
    b.put(1, 0).put(1, 0)
    return b.bytes()


OBJECTS = ['Core.Object', 'Engine.Actor', 'TAGame.RBActor_TA', 'TAGame.Ball_TA',
           'Archetypes.Ball.Ball_Default', 'TAGame.RBActor_TA:ReplicatedRBState', 'Engine.Actor:bHidden']


CAM_OBJECTS = ['Core.Object', 'TAGame.CameraSettingsActor_TA', 'TAGame.Default__CameraSettingsActor_TA',
               'TAGame.CameraSettingsActor_TA:ProfileSettings']


SWAP_OBJECTS = OBJECTS + ['TAGame.CameraSettingsActor_TA', 'TAGame.Default__CameraSettingsActor_TA',
                          'TAGame.CameraSettingsActor_TA:Unheard']
SWAP_CACHES = [(2, 1, 2, [(6, 3), (5, 10)]), (3, 2, 3, []), (7, 1, 4, [(9, 2)])]


def header(frames=2):
    return (i32(868) + i32(20) + i32(5) + text('TAGame.Replay_Soccar_TA')
            + prop('NumFrames', 'IntProperty', i32(frames))
            + prop('Goals', 'ArrayProperty', lst([prop('frame', 'IntProperty', i32(7)) + NONE, NONE]))
            + prop('Platform', 'ByteProperty', key('OnlinePlatform') + key('OnlinePlatform_Steam'))
            + prop('Dropped', 'ByteProperty', key('None') + b'\x2a')
            + prop('Bot', 'BoolProperty', b'\x01')
            + prop('Team', 'StructProperty', key('Kind') + prop('Id', 'QWordProperty', struct.pack('<Q', 2**63)) + NONE)
            + prop('Name', 'StrProperty', text16('é\U0001f600'))
            + prop('Fps', 'FloatProperty', f32(30.0))
            + NONE)


CACHES = [(1, 0, 1, [(6, 3)]), (2, 1, 2, [(5, 10)]), (3, 2, 3, [])]


def body(net=None, objects=OBJECTS, caches=CACHES, key_frame=1, classes=(('Core.Object', 0),)):
    cache = lambda o, p, c, ps: i32(o) + i32(p) + i32(c) + lst([i32(a) + i32(s) for a, s in ps])
    net = network() if net is None else net
    return (lst([text('stadium')]) + lst([f32(0.5) + i32(key_frame) + i32(2)])
            + i32(len(net)) + net
            + lst([]) + lst([text('Goal') + i32(1)]) + lst([text('pkg')])
            + lst([text(o) for o in objects]) + lst([text('Ball_0')])
            + lst([key(c) + i32(i) for c, i in classes])
            + lst([cache(*c) for c in caches]))


def cam_body():
    return body(cam_network(), CAM_OBJECTS, [(1, 0, 1, [(3, 2)])])


def swap_body():
    return body(swap_network(), SWAP_OBJECTS, SWAP_CACHES)


def early_body():
    return body(early_network())


def bad_body():
    return body(bad_network(), SWAP_OBJECTS, SWAP_CACHES)


def section(d):
    return u32(len(d)) + u32(crc(d)) + d


def show(name, comment, data):
    items = ['x%02x' % b for b in data]
    lines = ['; '.join(items[i:i + 18]) for i in range(0, len(items), 18)]
    return '(** %s *)\nDefinition %s : list byte :=\n  [%s].\n' % (comment, name, ';\n   '.join(lines))


out = ['(** * Sample files for the examples (written by tools/gen_sample.py) *)\n',
       'From Verif Require Import Base ObjectIndex BitReader.\n',
       show('sample_header', 'a header with every kind of property', header()),
       show('sample_body', 'a body whose two frames create, update and delete a ball', body()),
       show('sample_prefix', 'size and checksum of the header', u32(len(header())) + u32(crc(header()))),
       show('sample_middle', 'size and checksum of the body', u32(len(body())) + u32(crc(body()))),
       '(** the file *)\nDefinition sample : list byte :=\n  sample_prefix ++ sample_header ++ sample_middle ++ sample_body.\n',
       show('odd_header', 'the same header for three frames', header(3)),
       show('odd_body', 'a body whose three frames create (with a name that does not exist, at no time), delete and\n    update the ball', body(odd_network(3))),
       show('gone_body', 'the same with actor id 300', body(odd_network(300))),
       show('odd_prefix', 'size and checksum of the header', u32(len(header(3))) + u32(crc(header(3)))),
       show('odd_middle', 'size and checksum of the body', u32(len(body(odd_network(3)))) + u32(crc(body(odd_network(3))))),
       show('gone_middle', 'size and checksum of the body', u32(len(body(odd_network(300)))) + u32(crc(body(odd_network(300))))),
       show('few_body', 'a body with two bytes of network data', body(b'\x01\x02')),
       show('few_middle', 'size and checksum of the body', u32(len(body(b'\x01\x02'))) + u32(crc(body(b'\x01\x02')))),
       '(** the files *)\nDefinition odd_sample : list byte := odd_prefix ++ odd_header ++ odd_middle ++ odd_body.\n'
       'Definition gone_sample : list byte := odd_prefix ++ odd_header ++ gone_middle ++ gone_body.\n'
       'Definition few_sample : list byte := odd_prefix ++ odd_header ++ few_middle ++ few_body.\n',
       show('cam_header', 'the same header for one frame', header(1)),
       show('cam_body', 'a body with a camera whose transition is not a number', cam_body()),
       show('cam_prefix', 'size and checksum of the header', u32(len(header(1))) + u32(crc(header(1)))),
       show('cam_middle', 'size and checksum of the body', u32(len(cam_body())) + u32(crc(cam_body()))),
       '(** the file *)\nDefinition cam_sample : list byte := cam_prefix ++ cam_header ++ cam_middle ++ cam_body.\n',
       show('swap_body', 'a body in which an actor is updated, deleted and announced as something else', swap_body()),
       show('swap_middle', 'size and checksum of the body', u32(len(swap_body())) + u32(crc(swap_body()))),
       show('early_body', 'a body whose second frame has a negative time', early_body()),
       show('early_middle', 'size and checksum of the body', u32(len(early_body())) + u32(crc(early_body()))),
       show('bad_body', 'a body in which a ball is updated with an attribute that only cameras have', bad_body()),
       show('bad_middle', 'size and checksum of the body', u32(len(bad_body())) + u32(crc(bad_body()))),
       '(** the files *)\nDefinition swap_sample : list byte := sample_prefix ++ sample_header ++ swap_middle ++ swap_body.\n'
       'Definition early_sample : list byte := sample_prefix ++ sample_header ++ early_middle ++ early_body.\n'
       'Definition bad_sample : list byte := sample_prefix ++ sample_header ++ bad_middle ++ bad_body.\n',
       show('more_body', 'the body of the sample with two more bytes of network data', body(network() + b'\xff\x2a')),
       show('more_middle', 'size and checksum of the body', u32(len(body(network() + b'\xff\x2a'))) + u32(crc(body(network() + b'\xff\x2a')))),
       show('moving_body', 'a body with a ball whose velocities are missing', body(moving_network())),
       show('moving_middle', 'size and checksum of the body', u32(len(body(moving_network()))) + u32(crc(body(moving_network())))),
       show('moved_body', 'the same with eight zeros behind', body(moving_network() + bytes(8))),
       show('moved_middle', 'size and checksum of the body', u32(len(body(moving_network() + bytes(8)))) + u32(crc(body(moving_network() + bytes(8))))),
       '(** the files *)\nDefinition more_sample : list byte := sample_prefix ++ sample_header ++ more_middle ++ more_body.\n'
       'Definition one_sample : list byte := cam_prefix ++ cam_header ++ sample_middle ++ sample_body.\n'
       'Definition moving_sample : list byte := cam_prefix ++ cam_header ++ moving_middle ++ moving_body.\n'
       'Definition moved_sample : list byte := cam_prefix ++ cam_header ++ moved_middle ++ moved_body.\n',
       '(** one iteration order of hash maps: by key *)\nDefinition key_order : hash_order := fun V m => m.\n',
       ]
path = os.path.join(os.path.dirname(__file__), '../rocq/theories/Samples.v')
open(path, 'w').write('\n'.join(out))


# ---- replays with players, for the example programs

PLAY_OBJECTS = ['Core.Object', 'Engine.PlayerReplicationInfo', 'TAGame.PRI_TA', 'TAGame.Default__PRI_TA',
                'Engine.PlayerReplicationInfo:PlayerName', 'Engine.PlayerReplicationInfo:Ping',
                'TAGame.Car_TA', 'Archetypes.Car.Car_Default', 'Engine.Pawn:PlayerReplicationInfo',
                'TAGame.Car_TA:ReplicatedDemolish', 'TAGame.Car_TA:ReplicatedDemolishGoalExplosion',
                'TAGame.Car_TA:ReplicatedDemolishExtended']
PLAY_CACHES = [(1, 0, 1, [(4, 1), (5, 2)]), (6, 0, 2, [(8, 1), (9, 2), (10, 3), (11, 4)])]


class Play(Bits):
    def actor(self, i):
        return self.put(1, 1).limited(9, 1023, i)

    def vector(self):
        self.limited(4, 20, 5)
        return self.put(7, 64 + 10).put(7, 64 - 20).put(7, 64 + 30)

    def player(self, i):
        return self.actor(i).put(1, 1).put(1, 1).put(32, 0).put(1, 0).put(32, 3)

    def car(self, i):
        return self.actor(i).put(1, 1).put(1, 1).put(32, 0).put(1, 0).put(32, 7)

    def update(self, i, stream, n, bound):
        return self.actor(i).put(1, 1).put(1, 0).put(1, 1).limited(n, bound, stream)

    def name(self, i, s):
        self.update(i, 1, 1, 3).put(32, len(s) + 1)
        for c in s.encode() + b'\0':
            self.put(8, c)
        return self.put(1, 0)

    def ping(self, i, x):
        return self.update(i, 2, 1, 3).put(8, x).put(1, 0)

    def link(self, car, i):
        return self.update(car, 1, 2, 5).put(1, 1).put(32, i % 2**32).put(1, 0)

    def demolish(self, car, a, v):
        self.update(car, 2, 2, 5).put(1, 1).put(32, a % 2**32).put(1, 1).put(32, v % 2**32)
        return self.vector().vector().put(1, 0)

    def demolish_fx(self, car, a, v):
        self.update(car, 3, 2, 5).put(1, 0).put(32, 0).put(1, 1).put(32, a % 2**32).put(1, 1).put(32, v % 2**32)
        return self.vector().vector().put(1, 0)

    def demolish_extended(self, car, a, v):
        self.update(car, 4, 2, 5)
        self.put(1, 1).put(32, a % 2**32)
        self.put(1, 0).put(32, 0).put(1, 0)
        self.put(1, 0).put(32, 0).put(1, 1).put(32, 77)
        self.put(1, 1).put(32, v % 2**32)
        return self.vector().vector().put(1, 0)


def play_network():
    """three players, two of the same name, and their cars"""
    b = Play()
    b.f(1.0).f(0.25)
    b.player(1).player(2).player(3).car(4).car(5).car(6)
    b.name(1, 'ann').name(2, 'bob').name(3, 'bob')
    b.ping(1, 7)
    b.link(5, 2).link(6, -1)
    b.demolish(5, 4, 5)
    b.demolish_fx(5, -1, 5)
    b.link(4, 1)
    b.demolish_extended(5, 1, 6)
    b.put(1, 0)
    b.put(32, 0)
    return b.bytes()


def solo_network():
    """one player"""
    b = Play()
    b.f(1.0).f(0.25)
    b.player(1)
    b.ping(1, 5)
    b.name(1, 'ann')
    b.ping(1, 7)
    b.put(1, 0)
    b.put(32, 0)
    return b.bytes()


def play_header():
    return (i32(868) + i32(20) + i32(5) + text('TAGame.Replay_Soccar_TA')
            + prop('NumFrames', 'IntProperty', i32(1))
            + prop('PlayerStats', 'ArrayProperty', lst([
                prop('Name', 'StrProperty', text('ann')) + prop('Score', 'IntProperty', i32(3)) + NONE,
                prop('Name', 'NameProperty', text('bob')) + prop('Name', 'IntProperty', i32(1)) + NONE]))
            + prop('PlayerStats', 'IntProperty', i32(0))
            + NONE)


def odd_kind_header():
    return (i32(868) + i32(20) + i32(5) + text('TAGame.Replay_Soccar_TA')
            + prop('NumFrames', 'MapProperty', i32(1)) + NONE)


def play_body():
    return body(play_network(), PLAY_OBJECTS, PLAY_CACHES)


def solo_body():
    return body(solo_network(), PLAY_OBJECTS, PLAY_CACHES)


out = ['(** * Sample files with players (written by tools/gen_sample.py) *)\n',
       'From Verif Require Import Base.\n',
       show('play_header', 'a header with player statistics, with its size and checksum', section(play_header())),
       show('play_body', 'a body with three players and their cars, with its size and checksum', section(play_body())),
       show('solo_body', 'a body with one player, with its size and checksum', section(solo_body())),
       show('map_header', 'a header with a property of an unknown kind, with its size and checksum', section(odd_kind_header())),
       '(** the files *)\nDefinition play_sample : list byte := play_header ++ play_body.\n'
       'Definition solo_sample : list byte := play_header ++ solo_body.\n'
       'Definition map_sample : list byte := map_header ++ solo_body.\n',
       ]
path = os.path.join(os.path.dirname(__file__), '../rocq/theories/SamplesPlay.v')
open(path, 'w').write('\n'.join(out))


def note_header():
    return (i32(868) + i32(20) + i32(5) + text('TAGame.Replay_Soccar_TA')
            + prop('NumFrames', 'IntProperty', i32(1))
            + prop('Note', 'StrProperty', text('a "b"\\\n\x01'))
            + NONE)


def tiny_body():
    return body(cam_network(0x15AE43FD), CAM_OBJECTS, [(1, 0, 1, [(3, 2)])])


out = ['(** * A sample file for its JSON text (written by tools/gen_sample.py) *)\n',
       'From Verif Require Import Base.\n',
       show('note_header', 'a header with a text that needs escapes, with its size and checksum', section(note_header())),
       show('tiny_body', 'a body with a camera whose transition is a very small number, with its size and checksum', section(tiny_body())),
       '(** the file *)\nDefinition tiny_sample : list byte := note_header ++ tiny_body.\n',
       ]
path = os.path.join(os.path.dirname(__file__), '../rocq/theories/SamplesText.v')
open(path, 'w').write('\n'.join(out))


def loose_header():
    return (i32(868) + i32(20) + i32(5) + text('TAGame.Replay_Soccar_TA')
            + prop('NumFrames', 'IntProperty', i32(2)) + NONE)


def loose_body():
    b = Bits()
    for time in (2.0, 1.0):
        b.f(time).f(0.25).put(1, 0)
    return body(b.bytes(), CAM_OBJECTS, [(9, 77, 1, [(3, 2)])], 7, [('Nope', 9)])


out = ['(** * A sample file with contradictory tables (written by tools/gen_sample.py) *)\n',
       'From Verif Require Import Base.\n',
       show('loose_header', 'a header with its size and checksum', section(loose_header())),
       show('loose_body', 'a body whose time runs backwards, and whose tables refer to objects, classes and frames that do not exist', section(loose_body())),
       '(** the file *)\nDefinition loose_sample : list byte := loose_header ++ loose_body.\n',
       ]
path = os.path.join(os.path.dirname(__file__), '../rocq/theories/SamplesLoose.v')
open(path, 'w').write('\n'.join(out))

FORGED_OBJECTS = SWAP_OBJECTS[:-1] + ['TAGame.CameraSettingsActor_TA:Unheard]\n\nLast new actor:\n---------------\nactor id: 99\nobject name: Archetypes.Ball.Ball_Puck\n[']


def forged_body():
    return body(bad_network(), FORGED_OBJECTS, SWAP_CACHES)


out = ['(** * A sample file with line breaks in the name of an object (written by tools/gen_sample.py) *)\n',
       'From Verif Require Import Base Samples.\n',
       show('forged_body', 'the body of [bad_sample] with such a name', forged_body()),
       show('forged_middle', 'size and checksum of the body', u32(len(forged_body())) + u32(crc(forged_body()))),
       '(** the file *)\nDefinition forged_sample : list byte := sample_prefix ++ sample_header ++ forged_middle ++ forged_body.\n',
       ]
path = os.path.join(os.path.dirname(__file__), '../rocq/theories/SamplesForged.v')
open(path, 'w').write('\n'.join(out))
