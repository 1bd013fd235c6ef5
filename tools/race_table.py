#!/usr/bin/env python3
"""Writes rocq/theories/RaceTable.v: the table of tools/mutex_table.py with the reads and writes of the fields
that the structures with a lock change after their construction."""
import re, sys, glob, collections
ARGV = list(sys.argv)
FILE = __file__
__file__ = FILE.replace('race_table', 'mutex_table')
SRC = open(__file__).read()
SRC = SRC.replace("([] if 'range' in st[2] else h)", "([y for y in h if y[0] == 'Do' and y[1][:2] == 'Rd' and y[4] in MAPS] if 'range' in st[2] else h)")
SRC = SRC.replace('b = fs.pop(0)', 'b = Clo(fs.pop(0))')
SRC = SRC.replace("else: assert ops == [], (fn, ops)", "else: out += ops")
SRC = SRC.replace("""                assert not any(any_op(conv(fn, b)) for _, _, b in cs), (fn, st[1])
""", """                if any(any_op(conv(fn, b)) for _, _, b in cs):
                    node = [x for d, _, b in cs if d for x in conv(fn, b)]
                    for d, h, b in reversed(cs):
                        if not d: node = [('If', ('case ' + h)[:60], conv(fn, b), node)]
                    assert 'Continue' not in str(node), (fn, st[1])
                    out.append(('Loop', node + [('Exit', 'Break')])); continue
""")
SRC = SRC.replace("if not any(d for d, _, _ in cs): out.append", "out += [o for o in ops if o[1][:2] == 'Rd']\n                if not any(d for d, _, _ in cs): out.append")
class Clo(list): pass
MAPS = ['nodes', 'variantTypeMap', 'subs', 'tickers', 'browseCPs', 'historyCPs', 'sessionsByToken', 'items', 'subscriptionsByID']
exec(SRC[:SRC.index('\ndef main()')])
argv = ARGV
OUT = '/verif/rocq/theories/RaceTable.v'
SINGLE = ['Server', 'SessionManager', 'SubscriptionManager', 'NamespaceManager', 'Scheduler']

# ---- the fields ----------------------------------------------------------
FIELDS = collections.defaultdict(list)   # name -> structures
for f in sorted(glob.glob(R + '*.go')):
    if f.endswith('_test.go'): continue
    for m in re.finditer(r'^type (\w+) struct \{\n(.*?)^\}', open(f).read(), re.M | re.S):
        if m.group(1) not in CLS: continue
        for l in m.group(2).split('\n'):
            l = re.sub(r'//.*', '', l).strip()
            p = l.split(None, 1)
            if len(p) < 2 or p[0] in ('sync.RWMutex', 'sync.Mutex') or 'Mutex' in p[1]: continue
            for n in re.split(r',\s*', p[0]): FIELDS[n].append(m.group(1))
# kinds that are synchronised themselves: channels may be used by many threads, but not replaced
MUTATE = {'PushBack', 'PushFront', 'PopFront', 'PopBack', 'Remove', 'Clear', 'Init', 'SetMinCapacity', 'Set', 'Rotate', 'Reset', 'Write', 'Sum'}

def ftype(fn, x, f):
    own = FIELDS[f]
    t, g = fn
    if (fn, x) in BIND: return BIND[(fn, x)] if BIND[(fn, x)][0] in own else []
    if x == '': return []
    if decl[fn]['recv'] == x: return [t] if t in own else []
    if EXTERNAL.match(x) and x not in ('ch',): return []
    last = re.sub(r'\(\)$', '', x).split('.')[-1]
    try: c = rtype(fn, x, '-')
    except Exception: c = None
    if c is not None: return [z for z in c if z in own]
    if x in ('op', 'req', 'res', 'r', 'd', 'rule', 'v1', 'resp', 'cp', 'ep', 'identity', 'ref', 'cfg', 'set', 'e'): return []
    if last in ('sub', 'subs[i]', 'subs[j]'): return ['Subscription']
    if x == 'opts': return ['Server']
    if x in ('mi',) : return [z for z in own if z in ITEMS]
    if x in ('n', 'n1', 'n2', 'n3', 'node', 'target', 'child', 't') and set(own) & set(NODES): return [z for z in own if z in NODES]
    UNK.add((f, x, fn)); return []

# structures that a function makes, and a channel that is not open yet: not shared until it is done with them
UNK = set()
MADE = collections.defaultdict(set)
for k, d in decl.items():
    ts = [t for t, _ in d['toks']]
    for i in range(len(ts) - 4):
        if ts[i + 1:i + 3] == [':=', '&'] and ts[i + 3] in CLS and ts[i + 4] == '{': MADE[k].add(ts[i])
DEPTH = [0]
def built(fn, x): return (x in MADE[fn] and DEPTH[0] == 0) or fn[1].startswith('With') or (fn[1] == 'initializeNamespace' and DEPTH[0] == 0) or (fn, x) == (('serverSecureChannel', 'Open'), 'ch')
# local names of the retransmission queue
ALIAS = [k for k, d in decl.items() if re.search(r'\bq := s \. retransmissionQueue', ' '.join(t for t, _ in d['toks']))]
calls_m = calls
def calls(fn, ts, fs):
    out = calls_m(fn, ts, fs)
    acc, wr = [], []
    if fn in ALIAS:
        for i in range(len(ts) - 3):
            if ts[i] == 'q' and ts[i + 1] == '.' and ts[i + 3] == '(' and (i == 0 or ts[i - 1] != '.'):
                acc.append(('Do', '%s @@ KSubscription %s' % ('Wr' if ts[i + 2] in MUTATE else 'Rd', s('retransmissionQueue')), 's', 'Subscription', 'retransmissionQueue'))
    # the assignment of the statement
    a, d = None, 0
    for i, x in enumerate(ts):
        if x in '([{' and len(x) == 1: d += 1
        elif x in ')]}' and len(x) == 1: d -= 1
        elif d == 0 and x in ('=', '+=', '-=', '|=', '++', '--', ':=', '*='): a = i; break
    d = 0
    for i, x in enumerate(ts):
        if x in '([{' and len(x) == 1: d += 1
        elif x in ')]}' and len(x) == 1: d -= 1
        if x != '.' or i + 1 >= len(ts) or ts[i + 1] not in FIELDS: continue
        if i + 2 < len(ts) and ts[i + 2] == '(' : continue
        k = i
        # receiver text, as in mutex_table.calls
        while True:
            k -= 1
            if ts[k] in (')', ']'):
                e = 1
                while e:
                    k -= 1
                    e += {')': 1, ']': 1, '(': -1, '[': -1}.get(ts[k], 0)
                if k > 0 and re.match(r'\w', ts[k - 1]): continue
                break
            if k > 0 and ts[k - 1] == '.': k -= 1; continue
            break
        r = re.sub(r'\((?:[^()]|\([^()]*\))*\)', '()', text(ts[k:i]))
        f = ts[i + 1]
        for c in ftype(fn, r, f):
            if built(fn, r): continue
            w = a is not None and i < a and d == 0 and ts[a] != ':='
            w = w or (k >= 2 and ts[k - 1] == '(' and ts[k - 2] == 'delete')
            # the target of an assignment is the last field of the chain
            j = i + 2
            while w and j + 1 < len(ts) and ts[j] == '.':
                if ts[j + 1] in FIELDS and ftype(fn, text(ts[k:j]), ts[j + 1]): w = False
                j += 2
            w = w or (f != 'conn' and i + 4 < len(ts) and ts[i + 2] == '.' and ts[i + 3] in MUTATE and ts[i + 4] == '(')
            (wr if w else acc).append(('Do', '%s @@ %s %s' % ('Wr' if w else 'Rd', CLS[c], s(f)), r, c, f))
            if w and ts[a or 0] in ('+=', '-=', '|=', '++', '--'): acc.append(('Do', 'Rd @@ %s %s' % (CLS[c], s(f)), r, c, f))
    return acc + out + wr

call_m = call
def call(fn, r, nm):
    l = call_m(fn, r, nm)
    if nm in ('Lock', 'RLock', 'Unlock', 'RUnlock'): return [l[0] + (r,)]
    if len(l) == 1 and l[0][0] == 'Call':
        if built(fn, r) and fn[1] != 'Open': return strip_call(l[0])
        return [l[0] + (r,)]
    return l
def strip_call(c): return [('New', c[1])]

conv_m = conv
def conv(fn, stmts):
    d = DEPTH[0]
    if isinstance(stmts, Clo): DEPTH[0] += 1
    r = conv_m(fn, stmts)
    DEPTH[0] = d
    return r
get_m = get
def get(k):
    d, DEPTH[0] = DEPTH[0], 0
    get_m(k)
    DEPTH[0] = d

def main():
    for k in sorted(decl, key=lambda k: (k[0] or '', k[1])):
        if k[0] not in ('Node', 'MonitoredItem'): get(k)
    for k in sorted(decl, key=lambda k: (k[0] or '', k[1])):
        if k[1][0].isupper() and '.' not in k[1] and k[0] not in ('Node', 'MonitoredItem') and k not in roots and k != (None, 'New'): roots.append(k)
    renew()
    annotate()
    fields = report() + UNGUARDED
    for k in defs: defs[k] = final(defs[k], fields)
    for h in HANDLERS: HANDLERS[h] = [final(b, fields) for b in HANDLERS[h]]
    write()

SUFFIX = {'': None, '.sendingSemaphore': 'KSending', '.receivingSemaphore': 'KReceiving'}
def join(a, b): return b if a is None else a if b is None else a & b
def flow(k, l, h):
    """marks the accesses of a function body with the locks of their structure that are held; h: expressions whose locks are held"""
    out, ex = [], {}
    def leave(e):
        for x, v in e.items(): ex[x] = join(ex.get(x), v)
    for n in l:
        if n[0] == 'Do' and n[1][:2] == 'Lk': h = h | {n[2]}; out.append(n[:2])
        elif n[0] == 'Do' and n[1][:2] == 'Un': h = h - {n[2]}; out.append(n[:2])
        elif n[0] == 'Do' and n[1][:2] in ('Rd', 'Wr'):
            via = [SUFFIX[x] or CLS[n[3]] for x in SUFFIX if n[2] + x in h or (x == '' and n[3] in SINGLE)]
            out.append(('Do', n[1].replace('@@', '[%s]' % '; '.join(via)), n[3], n[4], via, k, n[2]))
        elif n[0] in ('Call', 'New'):
            if n[0] == 'Call' and len(n) > 2: SITES[n[1]].append({x for x in SUFFIX if n[2] + x in h})
            elif n[0] == 'Call': SITES[n[1]].append(set())
            out.append(n[:2])
        elif n[0] == 'If':
            a, ha, ea = flow(k, n[2], h); b, hb, eb = flow(k, n[3], h)
            leave(ea); leave(eb)
            out.append(('If', n[1], a, b))
            if ha is None and hb is None: return out, None, ex
            h = join(ha, hb)
        elif n[0] == 'Loop':
            while True:
                b, hb, eb = flow(k, n[1], h)
                g = join(h, join(hb, eb.pop('Continue', None)))
                if g == h: break
                h = g
            br = eb.pop('Break', None)
            leave(eb)
            out.append(('Loop', b)); h = join(h, br)
        elif n[0] == 'Scope':
            b, hb, eb = flow(k, n[1], h)
            h = join(hb, eb.pop('Leave', None)); leave(eb)
            out.append(('Scope', b))
            if h is None: return out, None, ex
        elif n[0] == 'Exit':
            ex[n[1]] = join(ex.get(n[1]), h); out.append(n)
            return out, None, ex
        else: out.append(n)
    return out, h, ex

SITES = collections.defaultdict(list)
INHERIT = {}
def annotate():
    """methods that are only called with a lock of their structure held"""
    cand = {k: set(SUFFIX) for k in defs if k in decl and decl[k].get('recv') and k not in roots}
    def init(k): return frozenset(decl[k]['recv'] + x for x in cand.get(k, ()))
    while True:
        SITES.clear()
        for k in defs: flow(k, defs[k], init(k))
        for h in HANDLERS:
            for b in HANDLERS[h]: flow(h, b, frozenset())
        new = {k: set.intersection(*SITES[ident(k)]) if SITES[ident(k)] else set() for k in cand}
        new = {k: v & cand[k] for k, v in new.items()}
        if new == cand: break
        cand = new
    INHERIT.update(cand)
    for k in defs: defs[k] = flow(k, defs[k], init(k))[0]
    for h in HANDLERS: HANDLERS[h] = [flow(h, b, frozenset())[0] for b in HANDLERS[h]]

def renew():
    """the methods called on a structure that its function is still making: without the accesses to it"""
    byid = {ident(k): k for k in defs}
    def new(i):
        k = byid[i]; j = (k[0], k[1] + '.new')
        if j not in defs:
            defs[j] = None; decl[j] = dict(decl[k])
            defs[j] = go(defs[k], decl[k]['recv']) if 'recv' in decl[k] else all_new(defs[k])
            byid[ident(j)] = j
        return ident(j)
    def all_new(l): return [('Call', new(n[1])) if n[0] == 'Call' else tuple(all_new(y) if isinstance(y, list) else y for y in n) for n in l]
    def go(l, r):
        out = []
        for n in l:
            if r and n[0] == 'Do' and n[1][:2] in ('Rd', 'Wr') and n[2] == r: continue
            if n[0] == 'New' or (r and n[0] == 'Call' and len(n) > 2 and n[2] == r): out.append(('Call', new(n[1])))
            else: out.append(tuple(go(y, r) if isinstance(y, list) else y for y in n))
        return out
    for k in list(defs): defs[k] = go(defs[k], None)
    for h in HANDLERS: HANDLERS[h] = [go(b, None) for b in HANDLERS[h]]

def report():
    """the fields that are always accessed with the same lock held, and the others"""
    byid = {ident(k): k for k in defs}
    memo, F = {}, collections.defaultdict(set)
    def drop(h, x):
        h = list(h)
        for i in range(len(h)):
            if h[i] == x: del h[i]; return tuple(h)
        raise Exception('drop %s %s' % (h, x))
    def ev(l, h):
        """set of (exit, held)"""
        cur, res = {h}, set()
        for n in l:
            nxt = set()
            for h in cur:
                if n[0] == 'Do':
                    w = n[1].split()
                    if w[0] == 'Lk': nxt.add(((w[1], w[2]),) + h)
                    elif w[0] == 'Un': nxt.add(drop(h, (w[1], w[2])))
                    else:
                        if w[0] in ('Rd', 'Wr'): F[(n[2], n[3])].add((w[0], tuple(n[4]), h, n[5][1] if isinstance(n[5], tuple) else n[5]))
                        nxt.add(h)
                elif n[0] == 'Exit': res.add((n[1], h))
                elif n[0] in ('Call', 'New'):
                    for x, g in cl(n[1], h): nxt.add(g)
                elif n[0] == 'If':
                    for b in n[2:4]:
                        for x, g in ev(b, h): nxt.add(g) if x == 'Fall' else res.add((x, g))
                elif n[0] == 'Scope':
                    for x, g in ev(n[1], h): nxt.add(g) if x in ('Fall', 'Leave') else res.add((x, g))
                elif n[0] == 'Loop':
                    seen, todo = set(), [h]
                    while todo:
                        g = todo.pop()
                        if g in seen: continue
                        seen.add(g); nxt.add(g)
                        for x, g2 in ev(n[1], g):
                            if x in ('Fall', 'Continue'): todo.append(g2)
                            elif x == 'Break': nxt.add(g2)
                            else: res.add((x, g2))
            cur = nxt
        return res | {('Fall', h) for h in cur}
    def cl(name, h):
        if (name, h) not in memo:
            memo[(name, h)] = set()
            if name.endswith('_handlers'): r = {('Fall', h)}.union(*[{('Fall', g) for _, g in ev(b, h)} for b in HANDLERS[name.split('_')[0]]])
            else: r = {('Fall', g) for _, g in ev(defs[byid[name]], h)}
            memo[(name, h)] = r
        return memo[(name, h)]
    for k in roots: cl(ident(k), ())
    good, bad = [], []
    for f in sorted(F):
        if not any(a == 'Wr' for a, _, _, _ in F[f]): continue
        K = CLS[f[0]]
        def prot(g, a, v, h):
            ms = [m for m, c in h if c == g]
            return g in v and ms and (a == 'Rd' or ms[0] == 'Ex')
        best = None
        for g in [K] + (['KSending', 'KReceiving'] if K == 'KChannel' else []):
            no = {(a, v, h, k) for a, v, h, k in F[f] if not prot(g, a, v, h)}
            if best is None or len(no) < len(best[1]): best = (g, no)
        (bad if best[1] else good).append((f, best))
        if best[1]:
            for g in CLS.values():
                assert not all(any(c == g and (a == 'Rd' or m == 'Ex') for m, c in h) for a, v, h, k in F[f]), (f, g)
    if '--report' in argv:
        for f, (g, _) in good: print('GOOD', f, g)
        for f, (g, no) in bad: print('BAD', f, g, '%d of %d' % (len(no), len(F[f])), sorted({(a, v, k) for a, v, _, k in no})[:12])
    return [f for f, _ in good]

# fields without a lock that stay in the table
UNGUARDED = [('SubscriptionManager', 'subscriptionsByID'), ('NamespaceManager', 'nodes'), ('Subscription', 'retransmissionQueue'),
             ('Subscription', 'items'), ('Subscription', 'session'), ('Subscription', 'disabledMonitoredItemCount'), ('Subscription', 'cancelPublishing'),
             ('Subscription', 'monitoringQueueOverflowCount'), ('Session', 'requestCount'), ('Session', 'userIdentity'), ('Session', 'localeIds'),
             ('Server', 'endpoints'), ('Server', 'state'), ('Server', 'serverDiagnosticsSummary'), ('DataChangeMonitoredItem', 'samplingInterval'), ('MethodNode', 'callMethodHandler'),
             ('VariableNode', 'readValueHandler'), ('serverSecureChannel', 'tokenID')]
def final(l, fields):
    """keeps the accesses to these fields; of accesses that follow each other, each only once"""
    out, grp = [], []
    def flush():
        out.extend(x for x in grp if not (x[1].startswith('Rd') and ('Do', 'Wr' + x[1][2:]) in grp)); grp.clear()
    for n in l:
        if n[0] == 'Do' and n[1][:2] in ('Rd', 'Wr'):
            if (n[2], n[3]) in fields and n[:2] not in grp: grp.append(n[:2])
            continue
        flush()
        if n[0] == 'Do': out.append(('Do', 'L (%s)' % n[1]))
        else: out.append(tuple(final(y, fields) if isinstance(y, list) else y for y in n))
    flush()
    return out

W = SRC[SRC.index('\ndef main()'):]
W = 'def write():\n    global EMPTY\n' + W[W.index("    for h in HANDLERS: defs"):W.rindex('\nmain()')]
W = W.replace("('Do', 'Wt %s' % s('application handler'))", "('Do', 'L (Wt %s)' % s('application handler'))")
W = W.replace("prog lop", "prog aop").replace("From Verif Require Import Flow Mutex.", "From Verif Require Import Flow Mutex Race.").replace('import Flow Mutex.', 'import Flow Mutex Race.')
W = W.replace("(** The locks, waits and calls to the application of the functions of /repo/server, transcribed by\n    tools/mutex_table.py in the language of Flow.v and Mutex.v.",
              "(** The locks, waits and accesses to shared data of the functions of /repo/server, transcribed by\n    tools/race_table.py in the language of Flow.v and Race.v. The table of MutexTable.v with the accesses added;\n    functions with the suffix _new are called on a structure that no other thread knows yet, without the accesses to it.")
W = W.replace("Definition roots", "Definition roots")
exec(W)
main()
