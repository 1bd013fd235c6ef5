#!/usr/bin/env python3
"""Writes rocq/theories/StructTable.v from the structure declarations and registrations of
/repo/ua/structs.generated.go (base types of named types from the other files of /repo/ua)."""
import glob, re, sys
D = '/repo/ua/'
src = open(D + 'structs.generated.go').read()
ids = dict(re.findall(r'^\s*(ObjectID\w+)\s+NodeID\s*=\s*NewNodeIDNumeric\(0,\s*(\d+)\)', open(D + 'nodeids.generated.go').read(), re.M))
base = {}
for f in glob.glob(D + '*.go'):
    for n, b in re.findall(r'^type (\w+) (u?int\d+|string|byte)$', open(f).read(), re.M):
        base[n] = b
structs = {}
for n, body in re.findall(r'^type (\w+) struct \{\n(.*?)^\}', src, re.M | re.S):
    fields = []
    for l in body.splitlines():
        w = l.split('//')[0].split('`')[0].split()
        if not w: continue
        fields.append((w[0], w[0]) if len(w) == 1 else (w[0], w[1]))
    structs[n] = fields
prim = {'bool': 'BBool', 'int8': 'BSByte', 'uint8': 'BByte', 'byte': 'BByte', 'int16': 'BInt16', 'uint16': 'BUInt16',
        'int32': 'BInt32', 'uint32': 'BUInt32', 'int64': 'BInt64', 'uint64': 'BUInt64', 'float32': 'BFloat',
        'float64': 'BDouble', 'string': 'BString', 'time.Time': 'BTime', 'NodeID': 'BNodeId', 'ExpandedNodeID': 'BExp',
        'QualifiedName': 'BQName', 'LocalizedText': 'BLText'}
special = {'Variant': 'TVar', 'DataValue': 'TDV', 'DiagnosticInfo': 'TDiag', 'ExtensionObject': 'TExt', 'uuid.UUID': 'TUnsupported'}
def ty(t):
    if t.startswith('[]'):
        e = t[2:]
        if base.get(e, e) in ('uint8', 'byte'): return 'TBytes'
        return 'TSlice ' + arg(ty(e))
    if t.startswith('*'): return 'TPtr f_' + t[1:]
    t = base.get(t, t)
    if t in prim: return 'TB ' + prim[t]
    if t in special: return special[t]
    if t in structs: return 'TStruct f_' + t
    raise SystemExit('unknown type ' + t)
def arg(s): return s if ' ' not in s else '(' + s + ')'
order, state = [], {}
def visit(n):
    if state.get(n) == 2: return
    if state.get(n) == 1: raise SystemExit('recursive type ' + n)
    state[n] = 1
    for _, t in structs[n]:
        t = t.lstrip('[]*')
        if t in structs: visit(t)
    state[n] = 2
    order.append(n)
for n in structs: visit(n)
regs = re.findall(r'RegisterBinaryEncodingID\(reflect\.TypeOf\(\(\*(\w+)\)\(nil\)\)\.Elem\(\), NewExpandedNodeID\((\w+)\)\)', src)
line = lambda n: src[:src.index('type %s struct' % n)].count('\n') + 1
o = '''(** The structures of the protocol and their identifiers, transcribed by tools/struct_table.py.

    Source: /repo/ua/structs.generated.go (line of each structure beside it); registrations 2489-2773;
    identifiers /repo/ua/nodeids.generated.go.  Enumerations and StatusCode are written by their Kind;
    ByteString is a string (ua/bytestring.go 10); uuid.UUID has no encoder (binary_encoder.go 96-169). *)
From Coq Require Import ZArith List String.
From Verif Require Import Prim Value.
Import ListNotations.
Open Scope Z_scope.

'''
for n in order:
    o += 'Definition f_%s : list ty := [%s].   (* %d *)\n' % (n, '; '.join(ty(t) for _, t in structs[n]), line(n))
o += '\n(** init 2489: name, identifier of the encoding, fields; the position is the number of the type *)\n'
o += 'Definition struct_table : list (string * Z * list ty) := [\n'
o += ';\n'.join('  ("%s"%%string, %s, f_%s)' % (n, ids[i], n) for n, i in regs) + '\n].\n'
out = '/verif/rocq/theories/StructTable.v'
if '--check' in sys.argv: print('same' if open(out).read() == o else 'different', len(regs))
else: open(out, 'w').write(o)
