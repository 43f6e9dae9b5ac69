"""Writes rocq/theories/ReplayBytes.v: excerpts of a replay shipped in /repo/assets.
The excerpts end at event boundaries; the details, the init data, the messages and
the header are whole."""
import os, sys
sys.path.insert(0, os.path.dirname(os.path.abspath(__file__)))
from mpq import A
root = os.path.dirname(os.path.dirname(os.path.abspath(__file__)))
a = A('/repo/assets/2023-04-08-2v2AI.SC2Replay')
def lit(name, b, what, k=400):
    out = ["(** %s *)" % what]; parts = []
    for i in range(0, len(b), k):
        n = "%s_%d" % (name, i // k); parts.append(n)
        out.append("Definition %s : list Z := [%s]." % (n, '; '.join(map(str, b[i:i + k]))))
    out.append("Definition %s : list Z := %s." % (name, ' ++ '.join(parts)))
    return '\n'.join(out)
t = a.read('replay.tracker.events'); g = a.read('replay.game.events')
src = "/repo/assets/2023-04-08-2v2AI.SC2Replay"
o = ["(** * Bytes of %s, written by tools/gen_replay_bytes.py *)" % src,
     "From Verif Require Import Base.",
     lit("rb_user", a.user, "The user header of %s." % src),
     lit("rb_details", a.read('replay.details'), "Its sector replay.details."),
     lit("rb_init", a.read('replay.initData'), "Its sector replay.initData."),
     lit("rb_messages", a.read('replay.message.events'), "Its sector replay.message.events."),
     lit("rb_tracker", t[:537] + t[38892:40366], "Of its sector replay.tracker.events the bytes 0 to 537 and 38892 to 40366: 17 and 26 events."),
     lit("rb_game", g[:2844], "The first 60 events of its sector replay.game.events.")]
open(os.path.join(root, 'rocq/theories/ReplayBytes.v'), 'w').write('\n'.join(o) + '\n')
