#!/usr/bin/env python3
"""Search for the seeds of rocq/theories/Proofs/ShinySeeds.v (checked by ShinyProofs.v)."""
A, C, M = 0x41C64E6D, 0x6073, 2**32
INV = pow(A, -1, M)
table = [None] * 8192
left, t = 8192, 0
while left:
    before = ((t - C) * INV) % M
    if (before >> 16) & 1:
        s1 = (A * t + C) % M
        s2 = (A * s1 + C) % M
        low, high = s1 >> 16, s2 >> 16
        if (t >> 16) % 25 == (low + 65536 * high) % 25:
            k = (low ^ high) >> 3
            if table[k] is None:
                table[k] = t
                left -= 1
    t += 1
out = ['(** For each number below 8192, a state whose next two rands, combined by exclusive or and divided by 8, give the number; its own rand',
       '    has the nature of the PID they make, and the rand before is odd. Generated by a search; [ShinyProofs.v] checks every entry. *)',
       'From Coq Require Import NArith List.', 'Import ListNotations.', 'Open Scope N_scope.', '']
for i in range(16):
    out.append(f'Definition shiny_seeds_{i} : list N :=')
    chunk = table[512 * i:512 * i + 512]
    out.append('  [' + ';\n   '.join('; '.join(map(str, chunk[j:j + 16])) for j in range(0, 512, 16)) + '].')
out.append('Definition shiny_seeds : list (list N) :=\n  [' + '; '.join(f'shiny_seeds_{i}' for i in range(16)) + '].')
with open('/verif/rocq/theories/Proofs/ShinySeeds.v', 'w') as f:
    f.write('\n'.join(out) + '\n')
