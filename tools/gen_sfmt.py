"""Transcribes the body of sfmt_shuffle (sfmt.py:13-120) into Gallina, line by line."""
import re
src = open("/repo/numba_pokemon_prngs/mersenne_twister/sfmt.py").read().split("\n")
out = []
def expr(e):
    e = e.strip()
    # tokenise: state[..], <<, >>, |, &, ^, parentheses, names, numbers
    toks = re.findall(r"state\[[^\]]*\]|<<|>>|[|&^()]|\w+", e)
    pos = [0]
    def idx(s):
        s = s[6:-1].strip()
        return f"({s})%nat" if " " in s else (f"{s}%nat" if s.isdigit() else s)
    def atom():
        t = toks[pos[0]]; pos[0] += 1
        if t == "(":
            r = xor(); assert toks[pos[0]] == ")"; pos[0] += 1; return r
        if t.startswith("state["): return f"(aget st {idx(t)})"
        return t
    def shift():
        r = atom()
        while pos[0] < len(toks) and toks[pos[0]] in ("<<", ">>"):
            op = toks[pos[0]]; pos[0] += 1
            r = f"(N.shift{'l' if op == '<<' else 'r'} {r} {atom()})"
        return r
    def band():
        r = shift()
        while pos[0] < len(toks) and toks[pos[0]] == "&":
            pos[0] += 1; r = f"(N.land {r} {shift()})"
        return r
    def xor_():
        r = band()
        while pos[0] < len(toks) and toks[pos[0]] == "^":
            pos[0] += 1; r = f"(N.lxor {r} {band()})"
        return r
    def xor():
        r = xor_()
        while pos[0] < len(toks) and toks[pos[0]] == "|":
            pos[0] += 1; r = f"(N.lor {r} {xor_()})"
        return r
    r = xor(); assert pos[0] == len(toks)
    return r, idx
blocks = []
def trans(lo, hi):
    res = []
    for n in range(lo, hi + 1):
        l = src[n - 1].strip()
        if not l or l.startswith("#"): continue
        m = re.match(r"(state\[[^\]]*\]) \^= (.*)$", l)
        if m:
            e, idx = expr(m.group(2))
            i = idx(m.group(1))
            res.append(f"  let st := aset st {i} (w32 (N.lxor (aget st {i}) {e})) in")
        else:
            m = re.match(r"(\w+) = (.*)$", l)
            e, _ = expr(m.group(2))
            res.append(f"  let {m.group(1)} := {e} in")
    return res
def find(s, start=0):
    return next(i + 1 for i in range(start, len(src)) if src[i].strip() == s)
a1 = find("x_0 = state[0] << 8"); a2 = find("x_0 = state[4] << 8")
l1 = find("for i in range(8, 136, 4):"); l2 = find("for i in range(136, 624, 4):")
end = find("if USE_NUMBA:")
def lastcode(n):
    while not src[n - 1].strip(): n -= 1
    return n
secs = [("sfmt_py_first", "", a1, lastcode(a2 - 1)), ("sfmt_py_second", "", a2, lastcode(l1 - 1)),
        ("sfmt_py_loop1", "(i : nat) ", l1 + 1, lastcode(l2 - 1)), ("sfmt_py_loop2", "(i : nat) ", l2 + 1, lastcode(end - 1))]
for name, arg, lo, hi in secs:
    print(f"(** sfmt.py:{lo}-{hi}. *)")
    print(f"Definition {name} {arg}(st : list N) : list N :=")
    print("\n".join(trans(lo, hi)))
    print("  st.\n")
