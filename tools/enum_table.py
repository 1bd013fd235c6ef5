"""Writes rocq/theories/EnumTable.v from the enumerations and the texts of status codes of the Go source."""
import re, sys
ENUMS = '/repo/ua/enums.generated.go'
STATUS = '/repo/ua/status_code.generated.go'
OUT = '/verif/rocq/theories/EnumTable.v'
s = open(ENUMS).read()
line = lambda i: s.count('\n', 0, i) + 1
consts, cases = [], []
types = re.findall(r'^type (\w+) (\w+)', s, re.M)
for n, base in types:
    assert base == 'int32', n
    m = re.search(r'^const \(\n((?:\s+\w+\s+%s = -?\d+\n)+)\)' % n, s, re.M)
    rows = re.findall(r'(\w+)\s+%s = (-?\d+)\n' % n, m.group(1))
    consts.append((n, line(m.start()), rows))
    f = re.search(r'^func \(v %s\) String\(\) string \{\n    switch v \{\n((?:    case -?\d+: ?\n        return "[^"\\]*"\n)+)    default:\n        return ""\n    \}\n\}' % n, s, re.M)
    cases.append((n, line(f.start()), re.findall(r'case (-?\d+): ?\n\s+return "(.*?)"\n', f.group(1))))
assert len(types) == len(re.findall(r'String\(\) string', s))
t = open(STATUS).read()
f = re.search(r'^func \(c StatusCode\) Error\(\) string \{\n    switch c \{\n((?:    case \w+:\n        return "[^"\\]*"\n)+)    default:\n        return "([^"\\]*)"\n    \}\n\}', t, re.M)
texts, unknown = re.findall(r'case (\w+):\n\s+return "(.*?)"\n', f.group(1)), f.group(2)
out = '''(** The enumerations of /repo/ua/enums.generated.go: for each type its constants, and the cases of the switch of its method
    String (all others: the empty string); and the cases of StatusCode.Error (/repo/ua/status_code.generated.go %d-%d).
    All the types are int32. Generated by tools/enum_table.py. *)
From Coq Require Import ZArith List String.
Import ListNotations.
Open Scope Z_scope.
Open Scope string_scope.

''' % (t.count('\n', 0, f.start()) + 1, t.count('\n', 0, f.end()) + 1)
out += 'Definition enum_constants : list (string * list (string * Z)) := [\n' + ';\n'.join('  (* %d *) ("%s", [%s])' % (l, n, '; '.join('("%s", %s)' % r for r in rows)) for n, l, rows in consts) + '\n].\n\n'
out += 'Definition enum_cases : list (string * list (Z * string)) := [\n' + ';\n'.join('  (* %d *) ("%s", [%s])' % (l, n, '; '.join('(%s, "%s")' % r for r in rows)) for n, l, rows in cases) + '\n].\n\n'
out += 'Definition status_texts : list (string * string) := [\n' + ';\n'.join('  ("%s", "%s")' % r for r in texts) + '\n].\nDefinition status_default : string := "%s".\n' % unknown
if '--check' in sys.argv:
    print('same' if out == open(OUT).read() else 'different', len(types), len(texts))
else:
    open(OUT, 'w').write(out)
