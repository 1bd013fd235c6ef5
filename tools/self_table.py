#!/usr/bin/env python3
"""Writes rocq/theories/OwnTable.v: the nodes of the Server and HistoryServerCapabilities objects of
/repo/server/nodeset_1_04.xml, what initializeNamespace (/repo/server/server.go) does with them, and the
variables of the diagnostics objects (/repo/server/session_manager.go, subscription_manager.go)."""
import glob, re, sys, xml.etree.ElementTree as ET
OUT = '/verif/rocq/theories/OwnTable.v'
NS = '{http://opcfoundation.org/UA/2011/03/UANodeSet.xsd}'
ids = {m[0]: int(m[1]) for m in re.findall(r'(\w+)\s+NodeID = NewNodeIDNumeric\(0, (\d+)\)', open('/repo/ua/nodeids.generated.go').read())}
root = ET.parse('/repo/server/nodeset_1_04.xml').getroot()
alias = {a.get('Alias'): a.text for a in root.iter(NS + 'Alias')}
N = {e.get('NodeId'): e for e in root if e.get('NodeId')}
kids = {}
for k, e in N.items(): kids.setdefault(e.get('ParentNodeId'), []).append(k)
num = lambda k: int(k[2:])
q = lambda s: '"%s"' % s
z = lambda n: '(%d)' % n if n < 0 else str(n)

# ---- structures of the protocol
S = open('/repo/ua/structs.generated.go').read()
structs = {n: re.findall(r'^\s+(\w+)\s+(\S+)', b, re.M) for n, b in re.findall(r'type (\w+) struct \{\n(.*?)\n\}', S, re.S)}
BT = {'bool': 'BBool', 'uint8': 'BByte', 'byte': 'BByte', 'uint16': 'BUInt16', 'int32': 'BInt32', 'uint32': 'BUInt32', 'float64': 'BDouble',
      'string': 'BString', 'time.Time': 'BTime', 'NodeID': 'BNodeId', 'LocalizedText': 'BLText', 'ByteString': 'BString',
      'ServerState': 'BInt32', 'MessageSecurityMode': 'BInt32'}
ZERO = {'uint32': '0'}
go_struct = lambda f, n: {m[0]: m[1] for m in re.findall(r'^\s+(\w+)\s+(\S+)', re.search(r'type %s struct \{\n(.*?)\n\}' % n, open(f).read(), re.S).group(1), re.M)}
SESS = go_struct('/repo/server/session.go', 'Session')
SUB = go_struct('/repo/server/subscription.go', 'Subscription')
CAPS = go_struct('/repo/ua/server_capabilites.go', 'ServerCapabilities')
GF = {'bool': 'g_bool', 'byte': 'g_byte', 'uint8': 'g_byte', 'uint16': 'g_uint16', 'int32': 'g_int32', 'uint32': 'g_uint32', 'float64': 'g_double',
      'string': 'g_string', 'time.Time': 'g_time', 'ua.NodeID': 'g_nodeid', 'ua.LocalizedText': 'g_text', 'ua.ByteString': 'g_bytestring', '[]string': 'g_strings'}

# ---- expressions: (Go type, Coq term) of a Go expression
def typed(e, sub, var):
    """fields of a session or subscription s, or of the session which reads"""
    m = re.fullmatch(r's\.(\w+)', e)
    if m and sub:
        f = m.group(1); t = SUB[f]
        return t, '(su_count %s "%s")' % (var, f) if t == 'uint32' else '(su_%s %s)' % (f, var)
    if m:
        f = m.group(1); t = SESS[f]
        return t, '(se_count %s "%s")' % (var, f) if t == 'uint32' else '(se_%s %s)' % (f, var)
    m = re.fullmatch(r'session\.(\w)(\w+)\(\)', e)
    if m:
        f = m.group(1).lower() + m.group(2); return SESS[f], '(se_%s r)' % f
    if e == 'int32(session.SecurityMode())': return 'int32', '(se_securityMode r)'
    if e in ('uint32(len(srv.subscriptionManager.GetBySession(s)))', 'uint32(subCount)'): return 'uint32', '(Z.of_nat (List.length (se_subs %s)))' % var
    if e == 'uint32(itemCount)': return 'uint32', '(item_count %s)' % var
    if e == 'uint32(len(s.publishRequests))': return 'uint32', '(se_queue %s)' % var
    if e == 'uint32(0)': return 'uint32', '0'
    if e == '"UA Binary"': return 'string', '(lit "UA Binary")'
    if e == 'ua.TransportProfileURIUaTcpTransport': return 'string', '(lit "%s")' % TRANSPORT
    raise SystemExit('no rule for ' + e)
TRANSPORT = re.search(r'TransportProfileURIUaTcpTransport\s+= "([^"]*)"', ''.join(open(f).read() for f in sorted(glob.glob('/repo/ua/*.go')))).group(1)

def literal(body):
    """field: expression of a struct literal, comments dropped"""
    body = re.sub(r'//[^\n]*', '', body)
    out, d, cur = [], 0, ''
    for c in body:
        if c in '({[': d += 1
        if c in ')}]': d -= 1
        if c == ',' and d == 0: out.append(cur); cur = ''
        else: cur += c
    out.append(cur)
    return dict(re.match(r'\s*(\w+):\s*(.*)', x, re.S).groups() for x in out if x.strip())

def fields(name, body, sub, var):
    given = {k: v.strip() for k, v in literal(body).items()}
    out = []
    for f, t in structs[name]:
        e = given.pop(f, None)
        if e is None: out.append('VB %s %s' % (BT[t], ZERO[t])); continue
        out.append(field_val(t, e, sub, var))
    assert not given, given
    return out
def field_val(t, e, sub, var):
    m = re.fullmatch(r'ua\.(\w+)\{(.*)\}', e, re.S)
    if m: return 'VStruct [%s]' % '; '.join(fields(m.group(1), m.group(2), sub, var))
    gt, x = typed(e, sub, var)
    if t == 'ApplicationDescription': return 'VStruct %s' % x
    if t == '[]string': return 'strings_val %s' % x
    return 'VB %s %s' % (BT[t], x)

# ---- server.go
src = open('/repo/server/server.go').read().split('\n')
first = next(i for i, l in enumerate(src) if l.startswith('func (srv *Server) initializeNamespace'))
last = next(i for i, l in enumerate(src) if i > first and l == '}')
CAPF = lambda f: 'of_caps (fun c => %s (cap_%s c))' % (GF[CAPS[f]], f)
def server_expr(e):
    if e in ('false', 'true'): return 'fun w => Some (g_bool %s)' % e
    m = re.fullmatch(r'byte\((\d+)\)', e)
    if m: return 'fun w => Some (g_byte %s)' % m.group(1)
    m = re.fullmatch(r'int32\((\d+)\)', e)
    if m: return 'fun w => Some (g_int32 %s)' % m.group(1)
    m = re.fullmatch(r'srv\.serverCapabilities\.OperationLimits\.(\w+)', e)
    if m: return 'of_limits (fun l => g_uint32 (l "%s"))' % m.group(1)
    m = re.fullmatch(r'srv\.serverCapabilities\.(\w+)', e)
    if m: return CAPF(m.group(1))
    m = re.fullmatch(r'srv\.buildInfo\.(\w+)', e)
    if m: return 'fun w => Some (%s (bi_%s (w_build w)))' % (GF[dict(structs['BuildInfo'])[m.group(1)]], m.group(1))
    m = re.fullmatch(r'srv\.serverDiagnosticsSummary\.(\w+)', e)
    if m: return 'fun w => Some (g_uint32 (w_summary w "%s"))' % m.group(1)
    m = re.fullmatch(r'ua\.ServerStatusDataType\{(.*)\}', e, re.S)
    if m:
        given = {k: v.strip() for k, v in literal(m.group(1)).items()}
        W = {'srv.startTime': 'w_start', 'time.Now()': 'w_now', 'srv.state': 'w_state', 'srv.shutdownReason': 'w_reason', 'srv.secondsTillShutdown': 'w_seconds'}
        fs = ['VStruct (build_fields (w_build w))' if given[f] == 'srv.buildInfo' else 'VB %s (%s w)' % (BT[t], W[given[f]]) for f, t in structs['ServerStatusDataType']]
        return 'fun w => Some (g_struct "ServerStatusDataType" [%s])' % '; '.join(fs)
    return 'fun w => Some (%s)' % {
        'srv.NamespaceUris()': 'g_strings (Some (w_namespaces w))', 'srv.ServerUris()': 'g_strings (Some (w_servers w))',
        'int32(srv.State())': 'g_int32 (w_state w)', 'time.Now()': 'g_time (w_now w)', 'srv.secondsTillShutdown': 'g_uint32 (w_seconds w)',
        'srv.shutdownReason': 'g_text (w_reason w)', 'srv.startTime': 'g_time (w_start w)',
        'srv.buildInfo': 'g_struct "BuildInfo" (build_fields (w_build w))', 'srv.serverDiagnostics': 'g_bool (w_diagnostics w)',
        'srv.serverDiagnosticsSummary': 'GoPtr "ServerDiagnosticsSummaryDataType" [%s]' %
            '; '.join('VB BUInt32 (w_summary w "%s")' % f for f, _ in structs['ServerDiagnosticsSummaryDataType'])}[e]
boot, skipped = [], []
i = first
while i < last:
    m = re.match(r'\tif (\w+), ok := nm\.(Find\w+)\(ua\.(\w+)\); ok \{', src[i])
    if not m: i += 1; continue
    j = next(k for k in range(i + 1, last) if src[k] == '\t}')
    body = '\n'.join(src[i + 1:j]); nid = ids[m.group(3)]
    line = i + 1
    d = re.search(r'DeleteNode\(n, (\w+)\)', body)
    a = re.search(r'n\.accessLevel = ua\.AccessLevelsCurrentRead', body)
    if d: boot.append((nid, 'Delete %s' % d.group(1), line))
    elif 'SetCallMethodHandler' in body: skipped.append((m.group(3), line))
    elif 'SetReferences' in body: skipped.append((m.group(3), line))
    else:
        if a: boot.append((nid, 'SetAccess 1', line))
        how = 'SetHandler' if 'SetReadValueHandler' in body else 'SetValue'
        if 'subscriptionsByID' in body:
            lit = re.search(r'ua\.SubscriptionDiagnosticsDataType\{(.*?)\n\t\t\t\t\}', body, re.S).group(1)
            array_fields = fields('SubscriptionDiagnosticsDataType', lit, True, 's')
            assert 'if !srv.serverDiagnostics {\n\t\t\t\treturn ua.NewDataValue(nil, 0,' in body
            e = 'fun w => Some (if w_diagnostics w then g_structs "SubscriptionDiagnosticsDataType" (map array_entry (w_subs w)) else g_nil)'
        else:
            t = re.search(r'ua\.NewDataValue\((.*), 0, time\.Now\(\), 0, time\.Now\(\), 0\)', body, re.S).group(1).strip()
            e = server_expr(t)
        boot.append((nid, '%s (%s)' % (how, e), line))
    i = j
# ---- the tree
tree, used = [], set()
def walk(k):
    e = N[k]; c = e.tag.replace(NS + 'UA', '')
    if c == 'Variable' or c == 'Object' or c == 'Method':
        dt = num(alias.get(e.get('DataType'), e.get('DataType'))) if e.get('DataType') else (24 if c == 'Variable' else 0)
        if c == 'Variable': used.add(dt)
        tree.append('mkDecl %d %d "%s" C%s %d %s %d' % (num(k), num(e.get('ParentNodeId') or 'i=0'), e.get('BrowseName'), c, dt, z(int(e.get('ValueRank') or -1)), int(e.get('AccessLevel') or 1)))
    for c in kids.get(k, []): walk(c)
walk('i=2253'); walk('i=11192')
# ---- diagnostics objects
def types_of(t):
    out = []
    for c in kids.get(t, []):
        e = N[c]; dt = num(alias.get(e.get('DataType'), e.get('DataType'))); used.add(dt)
        out.append('("%s", %d, %s)' % (e.get('BrowseName'), dt, z(int(e.get('ValueRank') or -1))))
    return out
def diagnostics(path, sub):
    L = open(path).read()
    f0 = L.index('addDiagnosticsNode(s *'); L0 = L[:f0].count('\n')
    L = L[f0:L.index(') removeDiagnosticsNode(')]
    out = []
    parts = re.split(r'(?=\b\w+ :?= NewVariableNode\()', L)
    off = L0 + parts[0].count('\n')
    for p in parts[1:]:
        who = re.match(r'\w+', p).group(0)
        m = re.search(r'NewQualifiedName\([^,]*, ("[^"]*"|fmt\.Sprint\(s\.id\))\)', p); name = m.group(1).strip('"')
        line = off + p[:m.start()].count('\n') + 1
        dt = re.search(r'^\s*ua\.DataTypeID(\w+),', p, re.M).group(1); used.add(ids['DataTypeID' + dt])
        rank = {'Scalar': '(-1)', 'OneDimension': '1'}[re.search(r'^\s*ua\.ValueRank(\w+),', p, re.M).group(1)]
        parent = re.findall(r'ReferenceTypeIDHasComponent, true, ua\.NewExpandedNodeID\((\w+)\.NodeID\(\)', p)
        guarded = 'if session == nil {' in p
        if guarded:
            g = re.sub(r'\s+', ' ', p[p.index('if session == nil {'):p.index('return ua.NewDataValue(', p.index('BadSecurityModeInsufficient'))])
            global GUARD
            g = g[:g.index('BadSecurityModeInsufficient')]
            assert GUARD in (None, g), p
            GUARD = g
        e = re.findall(r'(?:return|dv :=) ua\.NewDataValue\((.*?), 0, time\.Now\(\), 0, time\.Now\(\), 0\)', p, re.S)[-1]
        if 'NewDataValue(' in e: e = e[e.rindex('ua.NewDataValue(') + 16:]
        m = re.fullmatch(r'ua\.(\w+)\{(.*)\}', e.strip(), re.S)
        if m: x = 'g_struct "%s" [%s]' % (m.group(1), '; '.join(fields(m.group(1), m.group(2), sub, 's')))
        elif e == '[]ua.ExtensionObject{}': x = 'g_structs "SubscriptionDiagnosticsDataType" []'
        else:
            t, c = typed(e, sub, 's')
            if t == 'ua.ApplicationDescription': x = 'g_struct "ApplicationDescription" %s' % c
            else: x = '%s %s' % (GF[t], c)
        assert 'ua.AccessLevelsCurrentRead,' in p
        out.append((who, parent, name, 'mkDiag "%s" %d %s %s (fun s r => %s)' % (name if not name.startswith('fmt') else '', ids['DataTypeID' + dt], rank, str(guarded).lower(), x), line))
        off += p.count('\n')
    return out
GUARD = None
sess = diagnostics('/repo/server/session_manager.go', False)
subs = diagnostics('/repo/server/subscription_manager.go', True)
t2197, t2244, t2172 = types_of('i=2197'), types_of('i=2244'), types_of('i=2172')
# ---- data types up to BaseDataType
dts, todo = {}, sorted(used)
while todo:
    d = todo.pop(0)
    if d in dts: continue
    e = N['i=%d' % d]; sup = 0
    for r in e.iter(NS + 'Reference'):
        t = alias.get(r.get('ReferenceType'), r.get('ReferenceType'))
        if t == 'i=45' and r.get('IsForward') == 'false': sup = num(r.text)
    dts[d] = (sup, e.get('BrowseName'))
    if sup: todo.append(sup)

def lst(name, typ, items, com):
    return '(** %s *)\nDefinition %s : %s := [\n%s\n].\n\n' % (com, name, typ, ';\n'.join('  ' + x for x in items))
o = '''(** What the server's own nodes are and what the server puts into them, transcribed by tools/self_table.py.

    Source: /repo/server/nodeset_1_04.xml, /repo/server/server.go %d-%d (initializeNamespace),
    /repo/server/session_manager.go 106-1711 and /repo/server/subscription_manager.go 127-947 (addDiagnosticsNode);
    identifiers /repo/ua/nodeids.generated.go; structures /repo/ua/structs.generated.go.
    Left out: the references of the modelling rules (server.go 703-724) and the handlers of the methods (859-955). *)
From Coq Require Import ZArith List Bool String.
From Verif Require Import Bytes Prim Value Text Messages OwnData.
Import ListNotations.
Open Scope Z_scope.
Open Scope string_scope.

''' % (first + 1, last + 1)
o += lst('server_tree', 'list decl', tree, 'nodeset_1_04.xml: the nodes below Server (i=2253) and HistoryServerCapabilities (i=11192): identifier, parent, browse name, class, data type, value rank, access level')
o += lst('data_types', 'list (Z * (Z * string))', ['(%d, (%d, "%s"))' % (k, s, n) for k, (s, n) in sorted(dts.items())], 'nodeset_1_04.xml: data types with their supertype (0: none) and name')
o += '(** server.go 809-844: one element of SubscriptionDiagnosticsArray *)\nDefinition array_entry (s : subscription) : list val :=\n  [%s].\n\n' % '; '.join(array_fields)
o += '(** server.go 511-858, in the order of the text; the line beside each *)\nDefinition boot : list (Z * action) := [\n'
o += '\n'.join('  (%d, %s)%s   (* %d *)' % (a, b, ';' if k + 1 < len(boot) else '', l) for k, (a, b, l) in enumerate(boot)) + '\n].\n\n'
def dg(name, typ, items, com):
    return '(** %s *)\nDefinition %s : list (diagnostic %s) := [\n%s\n].\n\n' % (com, name, typ, '\n'.join('  %s%s   (* %d *)' % (x[3], ';' if k + 1 < len(items) else '', x[4]) for k, x in enumerate(items)))
top = [x for x in sess if 'sessionDiagnosticsObject' in x[1]]
det = [x for x in sess if 'sessionDiagnosticsVariable' in x[1]]
sec = [x for x in sess if 'sessionSecurityDiagnosticsVariable' in x[1]]
assert len(top) + len(det) + len(sec) == len(sess)
o += dg('session_object', 'session', top, 'session_manager.go: the components of the object of a session; s: the session it describes, r: the session which reads')
o += dg('session_details', 'session', det, 'session_manager.go: the components of its SessionDiagnostics')
o += dg('security_details', 'session', sec, 'session_manager.go: the components of its SessionSecurityDiagnostics')
o += dg('subscription_variable', 'subscription', subs[:1], 'subscription_manager.go: the variable of a subscription, named by its number')
o += dg('subscription_details', 'subscription', subs[1:], 'subscription_manager.go: its components')
o += lst('type_session', 'list (string * Z * Z)', t2197, 'nodeset_1_04.xml: components of SessionDiagnosticsVariableType (i=2197): name, data type, rank')
o += lst('type_security', 'list (string * Z * Z)', t2244, 'nodeset_1_04.xml: components of SessionSecurityDiagnosticsType (i=2244)')
o += lst('type_subscription', 'list (string * Z * Z)', t2172, 'nodeset_1_04.xml: components of SubscriptionDiagnosticsType (i=2172)')
cnt = []
for m in re.finditer(r'^func \(srv \*Server\) handle(\w+)\(.*?^\}', open('/repo/server/server_service_set.go').read(), re.S | re.M):
    l0 = m.string[:m.start()].count('\n') + 1
    c = re.search(r'\bl := len\(req\.(\w+)\)', m.group(0))
    if c: cnt.append(('("%s", "%s")' % (re.search(r'req \*ua\.(\w+)Request', m.group(0)).group(1), c.group(1)), l0 + m.group(0)[:c.start()].count('\n')))
o += '(** server_service_set.go: the array of the request whose length the handler calls l *)\nDefinition counted : list (string * string) := [\n'
o += '\n'.join('  %s%s   (* %d *)' % (x, ';' if k + 1 < len(cnt) else '', l) for k, (x, l) in enumerate(cnt)) + '\n].\n'
o = o.rstrip() + '\n'
if '--check' in sys.argv: print('same' if open(OUT).read() == o else 'different')
else:
    open(OUT, 'w').write(o)
    print(len(tree), len(boot), len(sess), len(subs), 'skipped', skipped)
    print(GUARD)
