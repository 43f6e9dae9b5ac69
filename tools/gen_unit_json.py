"""Writes rocq/theories/UnitJson.v: units of /repo/assets/BalanceData as values of [json]."""
import json, math, os, sys
root = os.path.dirname(os.path.dirname(os.path.abspath(__file__)))
def coq(j):
    if j is None: return 'JNull'
    if j is True or j is False: return '(JBool %s)' % str(j).lower()
    if isinstance(j, int): return '(JInt %s)' % (j if j >= 0 else '(%d)' % j)
    if isinstance(j, float):
        if j == 0: return '(JFloat (S754_zero %s))' % ('true' if math.copysign(1, j) < 0 else 'false')
        m, e = math.frexp(abs(j)); m = int(m * 2**53); e -= 53
        assert m * 2.0**e == abs(j)
        return '(JFloat (S754_finite %s %d (%d)))' % ('true' if j < 0 else 'false', m, e)
    if isinstance(j, str):
        assert all(32 <= ord(c) < 127 for c in j)
        return '(JStr "%s")' % j.replace('"', '""')
    if isinstance(j, list): return '(JArr [%s])' % '; '.join(map(coq, j))
    return '(JObj [%s])' % ';\n  '.join('("%s", %s)' % (k.replace('"', '""'), coq(v)) for k, v in j.items())
def main(out, names, version='94137'):
    o = ["(** * Units of /repo/assets/BalanceData/%s, written by tools/gen_unit_json.py *)" % version,
         "From Verif Require Import Base F32 BalanceJson.", "#[local] Open Scope string_scope.", "#[local] Open Scope Z_scope.", "#[local] Open Scope list_scope."]
    for n in names:
        j = json.load(open('/repo/assets/BalanceData/%s/%s.json' % (version, n)))
        o.append("(** /repo/assets/BalanceData/%s/%s.json *)" % (version, n))
        o.append("Definition uj_%s : json := %s." % (n.replace('-', '_').replace("'", ''), coq(j)))
    open(out, 'w').write('\n'.join(o) + '\n')
if __name__ == '__main__':
    if len(sys.argv) > 2: main(sys.argv[1], sys.argv[2:])
    else: main(os.path.join(root, 'rocq/theories/UnitJson.v'), ['Zealot', 'Forge'])
