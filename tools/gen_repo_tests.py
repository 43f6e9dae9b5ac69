"""Writes rocq/theories/RepoTestBytes.v: the byte vectors of the unit tests of /repo."""
import os, re
root = os.path.dirname(os.path.dirname(os.path.abspath(__file__)))
W = [('src/bit_packed_decoder.rs', ['bits_game', 'bits_init']), ('src/lib.rs', ['vlq_plain', 'vlq_build', 'vlq_tagged']),
     ('src/cache_handles/map_info.rs', ['map_info']), ('src/cache_handles/t3_height_map.rs', ['height_map']),
     ('src/cache_handles/document_header.rs', ['document']), ('src/versions/mod.rs', ['tracker'])]
o = ["(** * The byte vectors of the unit tests of /repo, written by tools/gen_repo_tests.py *)", "From Verif Require Import Base.", "#[local] Open Scope Z_scope."]
for f, names in W:
    s = open('/repo/' + f).read()
    s = s[s.index('#[cfg(test)]'):]
    s = re.sub(r'//[^\n]*', '', s)
    vs = [re.findall(r'0x[0-9a-f]+', v) for v in re.findall(r'vec!\[(.*?)\]', s, re.S)]
    assert len(vs) == len(names), (f, len(vs))
    for n, v in zip(names, vs):
        o.append("(** /repo/%s *)" % f)
        o.append("Definition rt_%s : list Z := [%s]." % (n, '; '.join(str(int(x, 16)) for x in v)))
open(os.path.join(root, 'rocq/theories/RepoTestBytes.v'), 'w').write('\n'.join(o) + '\n')
