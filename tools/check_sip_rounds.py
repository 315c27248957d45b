#!/usr/bin/env python3
"""Check that all unrolled SipHash rounds in /repo/siphash are the same text,
so that modelling them by one function (SipModel.sip_round) is exact."""
import re
ref = None
n = 0
for f in ('hash.go', 'hash128.go', 'siphash.go'):
    lines = open('/repo/siphash/' + f).read().split('\n')
    for i, l in enumerate(lines):
        if re.match(r'\s*// Round \d\.', l):
            body = [x.strip() for x in lines[i + 1:i + 18] if x.strip()]
            assert len(body) == 14, (f, i, len(body))
            if ref is None:
                ref = body
            assert body == ref, (f, i)
            n += 1
print(n, 'rounds, all identical:')
print('; '.join(ref))
