#!/usr/bin/env python3
"""Transcribe the literal tables of /repo/src into Coq source (lists of N / Z / string).

Nothing is computed here: every literal is copied in order.  Usage:
    python3 tools/gen_tables.py            # rewrites rocq/theories/T*.v
"""
import re, os
OUT = os.path.join(os.path.dirname(os.path.abspath(__file__)), '..', 'rocq', 'theories')
SRC = '/repo/src/'

def table(f, name):
    s = open(SRC + f).read()
    m = re.search(r'pub const ' + name + r': \[\w+; (\d+)\] = \[(.*?)\];', s, re.S)
    v = [int(x) for x in re.findall(r'-?\d+', m.group(2))]
    assert len(v) == int(m.group(1)), (name, len(v), m.group(1))
    first = s[:m.start()].count('\n') + 1
    last = s[:m.end()].count('\n') + 1
    return v, first, last

def strings(f, name):
    s = open(SRC + f).read()
    m = re.search(r'pub const ' + name + r': \[&str; (\d+)\] = \[(.*?)\];', s, re.S)
    v = re.findall(r'"([^"]*)"', m.group(2))
    assert len(v) == int(m.group(1))
    first = s[:m.start()].count('\n') + 1
    last = s[:m.end()].count('\n') + 1
    return v, first, last

def rows(v, lit, per=16):
    out = []
    for i in range(0, len(v), per):
        out.append('[' + ';'.join(lit(x) for x in v[i:i+per]) + ']')
    return out

def emit(path, header, defs):
    with open(os.path.join(OUT, path), 'w') as o:
        o.write(header)
        o.write('\n'.join(defs) + '\n')

HDR = '(* Generated by tools/gen_tables.py: a literal transcription, no computation. *)\nFrom Coq Require Import List NArith ZArith String.\nImport ListNotations.\n'

def big(name, ty, scope, v, lit, chunk, cite):
    """chunked definition: name_0, name_1 ... and name := concat"""
    out = []
    names = []
    for k in range(0, len(v), chunk):
        n = '%s_%d' % (name, k // chunk)
        names.append(n)
        r = rows(v[k:k+chunk], lit)
        out.append('Definition %s : list (list %s) := [\n%s]%%%s.' % (n, ty, ';\n'.join(r), scope))
    out.append('(* %s *)' % cite)
    out.append('Definition %s : list %s := List.concat (%s).' % (name, ty, ' ++ '.join(names)))
    return out

N = lambda x: str(x)
Z = lambda x: '(%d)' % x if x < 0 else str(x)
v, a, b = table('lookup.rs', 'LOOKUP')
emit('TLookup.v', HDR + 'Local Open Scope N_scope.\n', big('LOOKUP', 'N', 'N', v, N, 4096, 'src/lookup.rs:%d-%d LOOKUP : [u16; %d]' % (a, b, len(v))))
v, a, b = table('flush_lookup.rs', 'LOOKUP_FLUSH')
d = big('LOOKUP_FLUSH', 'N', 'N', v, N, 4096, 'src/flush_lookup.rs:%d-%d LOOKUP_FLUSH : [u16; %d]' % (a, b, len(v)))
v, a, b = table('hash_offsets.rs', 'PERF_HASH_OFFSETS')
d += big('PERF_HASH_OFFSETS', 'N', 'N', v, N, 4096, 'src/hash_offsets.rs:%d-%d PERF_HASH_OFFSETS : [u32; %d]' % (a, b, len(v)))
emit('TSmall.v', HDR + 'Local Open Scope N_scope.\n', d)
v, a, b = table('map.rs', 'MASK_MAP')
d = big('MASK_MAP', 'Z', 'Z', v, Z, 4096, 'src/map.rs:%d-%d MASK_MAP : [i16; %d]' % (a, b, len(v)))
v, a, b = table('map.rs', 'CARD_MAP')
d += big('CARD_MAP', 'Z', 'Z', v, Z, 4096, 'src/map.rs:%d-%d CARD_MAP : [i16; %d]' % (a, b, len(v)))
emit('TMap.v', HDR + 'Local Open Scope Z_scope.\n', d)
v, a, b = strings('string_lookup.rs', 'INDEX_TO_HAND')
S = lambda x: '"%s"' % x
d = big('INDEX_TO_HAND', 'string', 'string', v, S, 2048, 'src/string_lookup.rs:%d-%d INDEX_TO_HAND : [&str; %d]' % (a, b, len(v)))
v, a, b = strings('string_lookup.rs', 'INDEX_TO_COMBO')
d += big('INDEX_TO_COMBO', 'string', 'string', v, S, 2048, 'src/string_lookup.rs:%d-%d INDEX_TO_COMBO : [&str; %d]' % (a, b, len(v)))
emit('TStrings.v', HDR + 'Local Open Scope string_scope.\nLocal Open Scope list_scope.\n', d)
