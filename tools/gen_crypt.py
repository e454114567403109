#!/usr/bin/env python3
"""Print the tables of /repo/crypt/const.go as a Coq file (M_CryptTables.v)."""
import re
src = open('/repo/crypt/const.go').read()
def table(name):
    m = re.search(r'var %s = [^{]*\{' % name, src)
    i = m.end(); d = 1; j = i
    while d:
        d += {'{': 1, '}': -1}.get(src[j], 0); j += 1
    line = lambda k: src.count('\n', 0, k) + 1
    return src[i:j-1], line(m.start()), line(j)
out = ['(** * Tables of crypt/const.go (generated by tools/gen_crypt.py) *)',
       'From Verif Require Import M_Base.', 'Open Scope N_scope.', '']
for name in ['spTrans', 'skb']:
    body, a, b = table(name)
    body = re.sub(r'/\*.*?\*/', '', body)
    rows = re.findall(r'\{([^}]*)\}', body)
    out.append('(** crypt/const.go:%d-%d *)' % (a, b))
    out.append('Definition %s : list (list N) := [' % name)
    rr = []
    for r in rows:
        nums = re.findall(r'0x[0-9a-fA-F]+', r)
        assert len(nums) == 64, len(nums)
        ls = ['    ' + '; '.join(nums[i:i+8]) for i in range(0, 64, 8)]
        rr.append('  [\n' + ';\n'.join(ls) + ' ]')
    assert len(rr) == 8
    out.append(';\n'.join(rr) + ' ].')
body, a, b = table('shifts2')
out.append('(** crypt/const.go:%d *)' % a)
bs = re.findall('true|false', body); assert len(bs) == 16
out.append('Definition shifts2 : list bool := [' + '; '.join(bs) + '].')
for name, n in [('conSalt', 128), ('cov2char', 64)]:
    body, a, b = table(name)
    nums = re.findall(r'0x[0-9a-fA-F]+', body); assert len(nums) == n
    out.append('(** crypt/const.go:%d-%d *)' % (a, b))
    out.append('Definition %s : list N := [' % name)
    out.append(';\n'.join('  ' + '; '.join(nums[i:i+16]) for i in range(0, n, 16)) + ' ].')
print('\n'.join(out))
