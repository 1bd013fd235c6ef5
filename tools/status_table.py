"""Writes rocq/theories/StatusTable.v from the status code constants of the Go source."""
import re, sys
SRC = '/repo/ua/status_code.generated.go'  # Good itself is in status_code.go:40
OUT = '/verif/rocq/theories/StatusTable.v'
text = open(OUT).read()
head, rest = text.split('Definition status_table', 1)
tail = rest[rest.index('].\n') + 3:]
rows = [('Good', '0x00000000')] + re.findall(r'^\s*(?:const\s+)?(\w+)\s+StatusCode\s*=\s*(0x[0-9A-Fa-f]+)', open(SRC).read(), re.M)
body = ';\n'.join('  ("%s", %s)' % r for r in rows)
new = head + 'Definition status_table : list (string * Z) := [\n' + body + '\n].\n' + tail
if '--check' in sys.argv:
    print('same' if new == text else 'different', len(rows))
else:
    open(OUT, 'w').write(new)
