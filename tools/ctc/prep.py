#!/usr/bin/env python3
"""Preprocess the C sources in /repo (read only) for c2v.py.

Writes parameters.h and the twelve instances of faest_param.c.in the way
meson does, inserts the publication marks described in PATCHES and runs the
preprocessor alone (gcc -E) with the stub headers in inc/.  Nothing is
compiled."""
import os, re, subprocess, sys

REPO = '/repo'
HERE = os.path.dirname(os.path.abspath(__file__))
OUT = sys.argv[1]
os.makedirs(OUT, exist_ok=True)

def paramsets():
    sets, cur = [], None
    for line in open(f'{REPO}/meson.build'):
        m = re.match(r"(param_\w+) = configuration_data\(\)", line)
        if m:
            cur = {}; sets.append(cur); continue
        m = re.match(r"param_\w+\.set\('(\w+)', '?(\w+)'?\)", line)
        if m and cur is not None:
            cur[m.group(1)] = m.group(2)
    return sets

SETS = paramsets()
assert len(SETS) == 12
with open(f'{OUT}/parameters.h', 'w') as f:
    for s in SETS:
        for k, v in s.items():
            if k not in ('PARAM', 'PARAM_L'):
                f.write(f"#define FAEST_{s['PARAM']}_{k} {v}\n")

# (file, old text, new text): where a value becomes public.  Each mark only
# copies a value out; the text around it is unchanged.
PATCHES = {
 'faest.c': [
  # the counter start is part of the signature
  ("vole_commit(rootkey, signature_iv(sig, params), ell_hat,",
   "vole_commit(rootkey, __public(signature_iv(sig, params), IV_SIZE), ell_hat,"),
  # the last challenge is part of the signature
  ("ChalDec(signature_chall_3(sig, params), i, params->faest_param.k0, params->faest_param.t0,\n"
   "            params->faest_param.k1, params->faest_param.t1, s_);",
   "ChalDec(__public(signature_chall_3(sig, params), lambdaBytes), i, params->faest_param.k0, params->faest_param.t0,\n"
   "            params->faest_param.k1, params->faest_param.t1, s_);"),
 ],
 'faest_param.c.in': [
  # whether the key is one that key generation can return
  ("if (!faest_@PARAM_L@_owf(SK_KEY(sk), SK_INPUT(sk), owf_output)) {",
   "if (!__show(faest_@PARAM_L@_owf(SK_KEY(sk), SK_INPUT(sk), owf_output))) {"),
  # whether a candidate key is kept (declassified in the code, too)
  ("done = faest_@PARAM_L@_owf(SK_KEY(sk), SK_INPUT(sk), PK_OUTPUT(pk));",
   "done = __show(faest_@PARAM_L@_owf(SK_KEY(sk), SK_INPUT(sk), PK_OUTPUT(pk)));"),
  # the two answers of the validation
  ("if (!faest_@PARAM_L@_owf(SK_KEY(sk), SK_INPUT(sk), PK_OUTPUT(pk_check))) {",
   "if (!__show(faest_@PARAM_L@_owf(SK_KEY(sk), SK_INPUT(sk), PK_OUTPUT(pk_check)))) {"),
  ("return faest_timingsafe_bcmp(pk_check, pk, sizeof(pk_check)) == 0 ? 0 : 2;",
   "return __show(faest_timingsafe_bcmp(pk_check, pk, sizeof(pk_check)) == 0) ? 0 : 2;"),
 ],
 # only for inputs whose length is not a whole number of bytes
 'sha3/KeccakHash.c': [
  ("unsigned short delimitedLastBytes = (unsigned short)((unsigned short)(lastByte & ((1 << (databitlen % 8)) - 1)) | ((unsigned short)instance->delimitedSuffix << (databitlen % 8)));",
   "unsigned short delimitedLastBytes = __show((unsigned short)((unsigned short)(lastByte & ((1 << (databitlen % 8)) - 1)) | ((unsigned short)instance->delimitedSuffix << (databitlen % 8))));"),
 ],
}

def read(name):
    t = open(f'{REPO}/{name}').read()
    for old, new in PATCHES.get(name, []):
        assert t.count(old) == 1, (name, old, t.count(old))
        t = t.replace(old, new)
    return t

def pp(name, text, out, defs):
    src = f'{OUT}/_{os.path.basename(name)}'
    open(src, 'w').write(f'# 1 "{name}"\n' + text)
    cmd = ['gcc', '-E', '-std=gnu11', '-nostdinc', '-x', 'c', '-I', f'{HERE}/inc', '-I', OUT,
           '-I', REPO, '-I', f'{REPO}/sha3', '-I', f'{REPO}/sha3/opt64'] + defs + [src, '-o', f'{OUT}/{out}.i']
    r = subprocess.run(cmd, capture_output=True, text=True)
    if r.returncode:
        sys.exit(r.stderr)
    os.remove(src)

D = ['-D_GNU_SOURCE', '-DHAVE_CONFIG_H', '-DWITH_KECCAK_X4']
for f in ['fields', 'aes', 'universal_hashing', 'vc', 'vole', 'faest_aes', 'faest', 'random_oracle', 'owf', 'instances', 'compat']:
    pp(f + '.c', read(f + '.c'), f, D + (['-DHAVE_ALIGNED_ALLOC'] if f == 'compat' else []))
for f in ['sha3/KeccakHash', 'sha3/KeccakSponge', 'sha3/KeccakHashtimes4', 'sha3/KeccakSpongetimes4',
          'sha3/opt64/KeccakP-1600-opt64', 'sha3/opt64/KeccakP-1600-times4-on1']:
    pp(f + '.c', read(f + '.c'), os.path.basename(f), [])
pp('rand_stub.c', open(f'{HERE}/inc/rand_stub.c').read(), 'rand_stub', [])
pp('libc_stub.c', open(f'{HERE}/inc/libc_stub.c').read(), 'libc_stub', [])
tmpl = read('faest_param.c.in')
htmpl = open(f'{REPO}/faest_param.h.in').read()
for s in SETS:
    t, h = tmpl, htmpl
    for k, v in s.items():
        t = t.replace(f'@{k}@', v); h = h.replace(f'@{k}@', v)
    open(f"{OUT}/faest_{s['PARAM_L']}.h", 'w').write(h)
    pp(f"faest_param.c.in", t, f"param_{s['PARAM_L']}", D)
