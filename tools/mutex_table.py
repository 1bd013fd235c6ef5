#!/usr/bin/env python3
"""Writes rocq/theories/MutexTable.v: for every function of /repo/server that can take a lock,
wait or call the application, its control flow with these operations, in the language of Flow.v
and Mutex.v; and the list of the ways a thread of the server can start."""
import re, sys, glob, collections
sys.argv, argv = sys.argv[:1] + ['--none'], sys.argv
src = open(__file__.replace('mutex_table', 'handler_table')).read()
exec(src[:src.index('ACT = re.compile')])
tokens0 = tokens
def tokens(src, line):
    out = []
    for t in tokens0(src, line):
        out.append(t)
        if [x[0] for x in out[-3:]] in (['struct', '{', '}'], ['interface', '{', '}']): out[-3:] = [(out[-3][0] + '_', out[-3][1])]
    return out
R = '/repo/server/'
OUT = '/verif/rocq/theories/MutexTable.v'

NODES = ['DataTypeNode', 'MethodNode', 'ObjectNode', 'ObjectTypeNode', 'ReferenceTypeNode', 'VariableNode', 'VariableTypeNode', 'ViewNode']
ITEMS = ['DataChangeMonitoredItem', 'EventMonitoredItem']
CLS = {'Server': 'KServer', 'SessionManager': 'KSessionManager', 'Session': 'KSession', 'SubscriptionManager': 'KSubscriptionManager',
       'Subscription': 'KSubscription', 'DataChangeMonitoredItem': 'KDataItem', 'EventMonitoredItem': 'KEventItem',
       'NamespaceManager': 'KNamespaceManager', 'Scheduler': 'KScheduler', 'PollGroup': 'KPollGroup',
       'serverSecureChannel': 'KChannel', 'sendingSemaphore': 'KSending', 'receivingSemaphore': 'KReceiving'}
for n in NODES: CLS[n] = 'K' + n

# ---- the functions -------------------------------------------------------
decl = {}
for f in sorted(glob.glob(R + '*.go')):
    if f.endswith('_test.go'): continue
    s0 = open(f).read()
    for m in re.finditer(r'^func (?:\((\w+) (\*?)(\w+)\) )?(\w+)\(', s0, re.M):
        if s0[m.start():].split('\n', 1)[0].rstrip().endswith('}'):
            body = s0[m.start():].split('\n', 1)[0]
        else:
            body = re.match(r'.*?^\}', s0[m.start():], re.M | re.S).group(0)
        l0 = s0[:m.start()].count('\n') + 1
        # end of the signature
        i, d = m.end() - m.start(), 1
        while d: d += {'(': 1, ')': -1}.get(body[i], 0); i += 1
        while not (body[i] == '{' and not body[:i].endswith(('struct', 'interface', 'any'))): i += 1
        decl[(m.group(3), m.group(4))] = dict(file=f.split('/')[-1], recv=m.group(1), l0=l0, l1=l0 + body.count('\n'),
                                               toks=tokens(body[i:], l0 + body[:i].count('\n')))
names = collections.defaultdict(list)
for t, n in decl: names[n].append(t)

# ---- types of receivers --------------------------------------------------
EXTERNAL = re.compile(r'^(ua|time|log|crypto|crypto\.\w+|hmac|list|sha1|sha256|uuid|workerpool|wg|bytes|binary|json|strings|strconv|os|xml|url|net|sync|atomic|rand|rsa|fmt|math|reflect|base64|sort|errors|buffer|aes|cipher|x509|tls|filepath|hash|mac|queue|q|cipherBuf|plainBuf|bodyStream|stream|ch\.bytesPool|ch\.symSignHMAC|ch\.symVerifyHMAC|mi\.queue|mi\.prequeue|mi\.ts|time\.Now\(\)|req\.RequestHeader\.Timestamp|vc|vp|ne|conn|ln|ch\.conn|s\.retransmissionQueue|binary\.\w+|e\.Value|reflect\.\w+|ticker)$')
BIND = {}  # types of variables bound by a type switch or a type assertion
def rtype(fn, x, name):
    """types of the receiver expression x in function fn; [] for one outside the package"""
    t, f = fn
    if (fn, x) in BIND: return BIND[(fn, x)]
    if x == '': return [None] if (None, name) in decl else []
    if EXTERNAL.match(x): return []
    if x == '()': return [z for z in names[name] if z in NODES]  # a type assertion to a node
    if decl[fn]['recv'] == x: return [t]
    last = re.sub(r'\(\)$', '', x).split('.')[-1]
    if last in ('srv', 'server', 'Server'): return ['Server']
    if last in ('NamespaceManager', 'namespaceManager', 'nm'): return ['NamespaceManager']
    if last in ('SessionManager', 'sessionManager'): return ['SessionManager']
    if last in ('SubscriptionManager', 'subscriptionManager', 'manager', 'sm'): return ['SubscriptionManager']
    if last in ('session', 'sess'): return ['Session']
    if last in ('Scheduler', 'scheduler'): return ['Scheduler']
    if last == 'GetPollGroup': return ['PollGroup']
    if last == 'ch': return ['serverSecureChannel']
    if last in ('sendingSemaphore', 'receivingSemaphore'): return [last]
    if x == 'm': return {'handleActivateSession': ['SessionManager'], 'NewSessionManager': ['SessionManager'], 'NewSubscriptionManager': ['SubscriptionManager']}.get(f, ['NamespaceManager'])
    if x == 'sub': return ['EventMonitoredItem'] if fn == ('ObjectNode', 'OnEvent') else ['Subscription']
    if x == 's': return ['Session'] if t == 'SessionManager' else ['Subscription']
    if x == 'v' and t == 'SubscriptionManager': return ['Subscription']
    if x == 'listener' and t == 'PollGroup': return ['DataChangeMonitoredItem']
    if x == 'b' and f == 'NewPollGroup': return ['PollGroup']
    if x == 'mi' and f == 'NewDataChangeMonitoredItem': return ['DataChangeMonitoredItem']
    if x == 'mi' and f == 'NewEventMonitoredItem': return ['EventMonitoredItem']
    c = [z for z in names[name] if z in NODES + ITEMS]
    if x in ('item', 'trigger', 'e', 'mi') and set(c) & set(ITEMS): return [z for z in c if z in ITEMS]
    if x in ('target',) and t == 'NamespaceManager': return ['ObjectNode']
    if x in ('n', 'n1', 'n2', 'n3', 'nr', 'node', 'node1', 't', 'child', 'startNode', 'mandatory', 'mandatoryPlaceholder', 'optional', 'optionalPlaceholder',
             'item.Node', 'target', 'valueAsTextNode', 'enumValuesNode', 'nextNode', 'v', 'sessionDiagnosticsObject', 'sessionDiagnosticsVariable',
             'sessionSecurityDiagnosticsVariable', 'subscriptionDiagnosticsVariable', 'subscriptionDiagnosticsArrayVariable', 'sourceNode', 'parent', 'rt', 'td', 'tn', 'n4', 'nn') and set(c) & set(NODES):
        return [z for z in c if z in NODES]
    raise Exception('receiver %s of %s in %s' % (x, name, fn))

APP = re.compile(r'^(auth|h|srv\.rolesProvider|n\.historian|historian|srv\.historian|srv\.Historian\(\))$')
HANDLERS = {'read': [], 'write': [], 'call': []}
roots, defs, work = [], {}, set()

def ident(k): return 'f_' + ('_'.join(x for x in k if x)).replace('.', '_')

def calls(fn, ts, fs):
    """the operations of an expression, in the order of evaluation"""
    out, stack, lazy = [], [], 0
    fs = list(fs)
    i, n = 0, len(ts)
    def recv(j):
        # the receiver expression that ends before token j (ts[j] is '.')
        k = j
        while True:
            k -= 1
            if ts[k] in (')', ']'):
                d = 1
                while d:
                    k -= 1
                    d += {')': 1, ']': 1, '(': -1, '[': -1}.get(ts[k], 0)
                if k > 0 and re.match(r'\w', ts[k - 1]): continue
                break
            if k > 0 and ts[k - 1] == '.': k -= 1; continue
            break
        x = text(ts[k:j])
        return re.sub(r'\((?:[^()]|\([^()]*\))*\)', '()', x)
    def emit(l):
        if not l: return
        out.extend([('If', '&& ||', l, [])] if lazy else l)
    while i < n:
        x = ts[i]
        if x in ('&&', '||'): lazy += 1
        if x == '<func>':
            b = fs.pop(0)
            outer = stack[-1] if stack else None
            nm = outer[1] if outer else ''
            imm = i + 1 < n and ts[i + 1] == '('
            if ts[0] == 'go' or nm == 'Submit':
                k = (fn[0], fn[1] + '.' + ('go' if ts[0] == 'go' else 'task'))
                c = 1
                while (k[0], k[1] + str(c)) in defs: c += 1
                k = (k[0], k[1] + str(c))
                decl[k] = dict(decl[fn]); defs[k] = conv(fn, b); roots.append(k)
                decl[k]['l0'], decl[k]['l1'] = outer_line(b)
            elif nm in ('SetReadValueHandler', 'SetWriteValueHandler', 'SetCallMethodHandler'):
                kind = {'R': 'read', 'W': 'write', 'C': 'call'}[nm[3]]
                body = conv(fn, b)
                if prune(body) not in HANDLERS[kind]: HANDLERS[kind].append(prune(body))
            else:
                emit([('Scope', conv(fn, b))])
        elif x == '(':
            stack.append(('', ''))
            if i > 0 and re.match(r'[A-Za-z_]\w*$', ts[i - 1]) and ts[i - 1] not in ('func', 'return', 'switch', 'range', 'case', 'go', 'defer'):
                stack[-1] = (recv(i - 2) if i > 1 and ts[i - 2] == '.' else '', ts[i - 1])
        elif x in '[{': stack.append(('', ''))
        elif x in ')]}':
            r, nm = stack.pop()
            if nm: emit(call(fn, r, nm))
        elif x == '<-':
            out.append(('Do', 'Wt %s' % s('channel ' + text(ts[:i]) if i and ts[i - 1] not in ('=', ':=') else 'channel ' + text(ts[i + 1:i + 6]))))
        i += 1
    return out

def outer_line(b):
    ls = []
    def go(l):
        for st in l:
            ls.append(st[1])
            for y in st[2:]:
                if isinstance(y, list):
                    for z in y:
                        if isinstance(z, tuple) and len(z) == 3 and isinstance(z[0], bool): go(z[2])
                        elif isinstance(z, tuple) and isinstance(z[0], str): go([z])
                        elif isinstance(z, list): go(z)
    go(b)
    return min(ls), max(ls)

def call(fn, r, nm):
    if nm in ('Lock', 'RLock', 'Unlock', 'RUnlock'):
        t, = rtype(fn, r, nm)
        return [('Do', '%s %s %s' % ('Lk' if nm in ('Lock', 'RLock') else 'Un', 'Sh' if nm[0] == 'R' else 'Ex', CLS[t]))]
    if fn == ('Server', 'readValue') and (r, nm) == ('', 'f'): return [('Call', 'read_handlers')]
    if fn == ('Server', 'writeValue') and (r, nm) == ('', 'f'): return [('Call', 'write_handlers')]
    if nm == 'callMethodHandler': return [('Call', 'call_handlers')]
    if fn[1].startswith('startPublishing') and (r, nm) == ('', 'f'): return ref(('Subscription', 'publish'))
    if APP.match(r) and nm not in ('Len',): return [('Do', 'Wt %s' % s('application %s' % nm))]
    if (r, nm) in (('ch.conn', 'Write'), ('ch.conn', 'Read'), ('ln', 'Accept'), ('wg', 'Wait'), ('time', 'Sleep')):
        return [('Do', 'Wt %s' % s({'Write': 'network write', 'Read': 'network read', 'Accept': 'network accept', 'Wait': 'tasks', 'Sleep': 'time'}[nm]))]
    if (r, nm) == ('srv.workerpool', 'StopWait'): return [('Do', 'Wt %s' % s('tasks'))]
    # the encoders and decoders made with the channel as context ask it for the namespace table
    # (/repo/ua/binary_encoder.go 786, binary_decoder.go 782)
    if r in ('bodyEncoder', 'bodyDecoder', 'encoder', 'decoder') and decl[fn]['file'] == 'server_secure_channel.go' and re.match('Encode|Decode|Read|Write', nm):
        return [('If', 'expanded node id', ref(('serverSecureChannel', 'NamespaceURIs')), [])]
    if nm not in names: return []
    out = [(t, nm) for t in rtype(fn, r, nm)]
    for k in out: assert k in decl, (fn, r, nm, k)
    if not out: return []
    if len(out) == 1: return ref(out[0])
    # a method of an interface: one of the implementations
    i = 'Node' if out[0][0] in NODES else 'MonitoredItem'
    k = (i, nm) if len(out) == len([z for z in names[nm] if z in (NODES if i == 'Node' else ITEMS)]) else (i, nm + '.' + '.'.join(z[0] for z in out))
    if k not in defs:
        node = ref(out[-1])
        for z in reversed(out[:-1]): node = [('If', 'kind', ref(z), node)]
        decl[k] = dict(file='node.go' if i == 'Node' else 'monitored_item.go', l0=0, l1=0)
        defs[k] = node
    return [('Call', ident(k))]

def ref(k):
    # a recursive call: the body is a loop
    if k in work and k not in defs: RECUR.append(k); return []
    get(k)
    return [('Call', ident(k))]

RECUR = []
def get(k):
    if k in defs: return
    work.add(k)
    d = decl[k]
    b = P(d['toks']).block()
    defs_k = body(k, b)
    if k in RECUR: defs_k = [('Loop', [('Scope', defs_k)])]
    defs[k] = defs_k

def body(k, b):
    # labels
    for i, st in enumerate(b):
        if st[0] == 'do' and len(st[2]) >= 2 and st[2][1] == ':' and re.match(r'\w+$', st[2][0]):
            lab = st[2][0]
            tail = ([('do', st[1], st[2][2:], st[3])] if len(st[2]) > 2 else []) + b[i + 1:]
            if lab == 'loop': return conv(k, b[:i]) + [('Loop', [('Scope', conv(k, tail))])]
            return [('Scope', conv(k, b[:i])), ('If', lab, conv(k, tail), [])]
    return conv(k, b)

def hasbrk(b):
    for st in b:
        if st[0] == 'do' and st[2] and st[2][0] == 'break': return True
        if st[0] == 'if' and (hasbrk(st[3]) or hasbrk(st[4])): return True
        if st[0] == 'block' and hasbrk(st[2]): return True
    return False

def conv(fn, stmts):
    out = []
    for i, st in enumerate(stmts):
        k = st[0]
        if k == 'if':
            h = st[2]
            if ';' in h:
                j = len(h) - 1 - h[::-1].index(';')
                out += calls(fn, h[:j], []); h = h[j + 1:]
            m = re.match(r'(\w+), ok := [\w.]+\.\(\*(\w+)\);', text(st[2]))
            out += calls(fn, h, [])
            if m: BIND[(fn, m.group(1))] = [m.group(2)]
            a = conv(fn, st[3])
            if m: BIND.pop((fn, m.group(1)))
            out.append(('If', text(h)[:60], a, conv(fn, st[4])))
        elif k == 'for':
            h = calls(fn, st[2], [])
            out += h
            out.append(('Loop', ([] if 'range' in st[2] else h) + conv(fn, st[3])))
        elif k in ('switch', 'select'):
            cs = st[3]
            out += calls(fn, st[2], [])
            ops = [o for d, h, b in cs for o in calls(fn, [t for t, _ in tokens(h, 0)[:-1]], [])]
            if k == 'select':
                if not any(d for d, _, _ in cs): out.append(('Do', 'Wt %s' % s('channel select')))
            else: assert ops == [], (fn, ops)
            if any(hasbrk(b) for _, _, b in cs):
                # a break leaves the switch: nothing of interest may be inside
                assert not any(any_op(conv(fn, b)) for _, _, b in cs), (fn, st[1])
                if any(leaves(conv(fn, b)) for _, _, b in cs): out.append(('If', 'switch', [('Exit', 'Leave')], []))
                continue
            v = re.match(r'(\w+) := [\w.]+\.\(type\)$', text(st[2]))
            node = [x for d, _, b in cs if d for x in conv(fn, b)]
            for d, h, b in reversed(cs):
                if d: continue
                m = v and re.match(r'\*(\w+)$', h)
                if m: BIND[(fn, v.group(1))] = [m.group(1)]
                node = [('If', ('case ' + h)[:60], conv(fn, b), node)]
                if m: BIND.pop((fn, v.group(1)))
            out += node
        elif k == 'block': out += conv(fn, st[2])
        else:
            ts, fs = st[2], st[3]
            if not ts: continue
            if len(ts) >= 2 and ts[1] == ':' and re.match(r'\w+$', ts[0]): raise Exception('label in %s' % (fn,))
            if ts[0] == 'defer':
                c = prune(calls(fn, ts[1:], fs))
                if c: return out + [('Scope', conv(fn, stmts[i + 1:]))] + c
                continue
            if ts[0] == 'go' and '<func>' not in ts:
                # go x.f(...)
                j = ts.index('(')
                t, = rtype(fn, text(ts[1:j - 2]), ts[j - 1])
                if (t, ts[j - 1]) not in roots: roots.append((t, ts[j - 1]))
                continue
            if ts[0] in ('break', 'continue'):
                assert len(ts) == 1, (fn, ts)
                out.append(('Exit', ts[0].capitalize())); continue
            if ts[0] == 'goto': out.append(('Exit', 'Leave')); continue
            out += calls(fn, ts, fs)
            if ts[0] == 'return': out.append(('Exit', 'Leave'))
    return out

def prune(l):
    """drops what takes no lock and waits for nothing"""
    out = []
    for n in l:
        if n[0] == 'If':
            a, b = prune(n[2]), prune(n[3])
            if a == b and all(x[0] != 'Exit' for x in a): out += a; continue
            if a == b: out += a; break
            out.append(('If', n[1], a, b))
        elif n[0] in ('Loop', 'Scope'):
            b = prune(n[1])
            if n[0] == 'Scope' and b in ([], [('Exit', 'Leave')]): continue
            if n[0] == 'Scope' and not exits(b): out += b; continue
            if n[0] == 'Loop' and not any_op(b) and not leaves(b): continue
            out.append((n[0], b))
        elif n[0] == 'Call' and n[1] in EMPTY: continue
        else:
            # a choice between two ways to the same exit
            while n[0] == 'Exit' and out and out[-1][0] == 'If' and all(b in ([], [n]) for b in out[-1][2:]): out.pop()
            out.append(n)
            if n[0] == 'Exit': break
    return out

def leaves(l): return any(n == ('Exit', 'Leave') or (n[0] == 'If' and (leaves(n[2]) or leaves(n[3]))) or (n[0] == 'Loop' and leaves(n[1])) for n in l)
def exits(l): return any(n[0] == 'Exit' or (n[0] == 'If' and (exits(n[2]) or exits(n[3]))) or (n[0] == 'Loop' and leaves(n[1])) for n in l)
def any_op(l): return any(n[0] in ('Do', 'Call') or (n[0] == 'If' and (any_op(n[2]) or any_op(n[3]))) or (n[0] in ('Loop', 'Scope') and any_op(n[1])) for n in l)
def refs(l):
    r = []
    for n in l:
        if n[0] == 'Call': r.append(n[1])
        for y in n[1:]:
            if isinstance(y, list): r += refs(y)
    return r
EMPTY = set()

def tail(l):
    """a return at the end of a function is its end"""
    if l and l[-1] == ('Exit', 'Leave'): return tail(l[:-1])
    return l

def show(l, ind):
    if not l: return 'Done'
    n, k = l[0], l[1:]
    pad = '\n' + ' ' * ind
    if n[0] == 'Exit': return 'Exit ' + n[1]
    if n[0] == 'Do': return 'Do (%s) (%s%s)' % (n[1], pad, show(k, ind))
    if n[0] == 'Call': return 'Scope %s (%s%s)' % (n[1], pad, show(k, ind))
    if n[0] == 'If': return 'If %s (%s%s) (%s) (%s%s)' % (s(n[1]), pad + ' ', show(n[2], ind + 1), show(n[3], ind + 1), pad, show(k, ind))
    return '%s (%s%s) (%s%s)' % (n[0], pad + ' ', show(n[1], ind + 1), pad, show(k, ind))

s = lambda x: '"%s"%%string' % x.replace('"', "'").replace('(*', '( *').replace('*)', '* )')

def main():
    global EMPTY
    for k in sorted(decl, key=lambda k: (k[0] or '', k[1])):
        if k[0] not in ('Node', 'MonitoredItem'): get(k)
    for k in sorted(decl, key=lambda k: (k[0] or '', k[1])):
        if k[1][0].isupper() and '.' not in k[1] and k[0] not in ('Node', 'MonitoredItem') and k not in roots: roots.append(k)
    for h in HANDLERS: defs[(None, h + '_handlers')] = None
    def choice(bs):
        node = [('Do', 'Wt %s' % s('application handler'))]
        for b in reversed(bs): node = [('If', 'which handler', [('Scope', b)], node)]
        return node
    # drop the functions without an operation
    while True:
        hs = {h: choice([b for b in map(prune, v) if any_op(b)]) for h, v in HANDLERS.items()}
        for h in hs: defs[(None, h + '_handlers')] = hs[h]
        new = {ident(k) for k in defs if k[1] + '' and not any_op(tail(prune(defs[k])))}
        if new <= EMPTY: break
        EMPTY |= new
    used = {ident(k): k for k in defs if ident(k) not in EMPTY}
    for h in HANDLERS: used[h + '_handlers'] = (None, h + '_handlers'); used.pop('f_%s_handlers' % h, None)
    order, seen = [], set()
    def visit(n):
        if n in seen: return
        seen.add(n)
        for r in refs(prune(defs[used[n]])): visit(r)
        order.append(n)
    for k in roots:
        if ident(k) not in EMPTY: visit(ident(k))
    o = '''(** The locks, waits and calls to the application of the functions of /repo/server, transcribed by
    tools/mutex_table.py in the language of Flow.v and Mutex.v. A call is the [Scope] of what is called;
    one of several possible callees is an [If]; a deferred unlock is at the end of the function. *)
From Coq Require Import List String.
From Verif Require Import Flow Mutex.
Import ListNotations.

'''
    for n in order:
        k = used[n]
        if n.endswith('_handlers'):
            o += '(** the %s handlers that the server sets, or one of the application *)\n' % n.split('_')[0]
        elif k[0] in ('Node', 'MonitoredItem'):
            o += '(** %s of the interface %s: the kinds of %s *)\n' % (k[1], k[0], k[0])
        else:
            d = decl[k]
            o += '(** /repo/server/%s %d-%d %s *)\n' % (d['file'], d['l0'], d['l1'], '.'.join(x for x in k if x))
        o += 'Definition %s : prog lop :=\n  %s.\n\n' % (n, show(tail(prune(defs[k])), 2))
    rs = [k for k in roots if ident(k) not in EMPTY]
    o += '(** How a thread of the server starts: its goroutines, the tasks of the worker pool and the exported functions *)\nDefinition roots : list (string * prog lop) := [\n'
    o += ';\n'.join('  (%s, %s)' % (s('.'.join(x for x in k if x)), ident(k)) for k in rs) + '\n].\n'
    if '--check' in argv: print('same' if open(OUT).read() == o else 'different')
    else: open(OUT, 'w').write(o)
    print('roots', len(rs), 'definitions', len(order), 'recursive', set(RECUR), file=sys.stderr)

main()
