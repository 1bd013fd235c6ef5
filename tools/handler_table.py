#!/usr/bin/env python3
"""Writes rocq/theories/HandlerTable.v: the control flow of the service handlers of
/repo/server/server_service_set.go, with the counters they change, the messages they
send, the checks they make and the calls with an effect, in the language of Handlers.v."""
import re, sys
R = '/repo/server/'
OUT = '/verif/rocq/theories/HandlerTable.v'
TOK = re.compile(r'''//[^\n]*|/\*.*?\*/|"(?:\\.|[^"\\])*"|`[^`]*`|'(?:\\.|[^'\\])+'|[A-Za-z_]\w*|\d[\w.]*|\n|[ \t\r]+|:=|\+\+|--|<-|&&|\|\||[<>=!+\-*/%&|^]=|<<|>>|\.\.\.|.''', re.S)
ENDS = re.compile(r'^(\w+|".*|`.*|\'.*|\)|\]|\}|\+\+|--)$', re.S)
NOEND = {'if', 'for', 'switch', 'select', 'case', 'func', 'go', 'defer', 'range', 'else', 'var'}

def tokens(src, line):
    out, last = [], None
    for m in TOK.finditer(src):
        t = m.group(0)
        if t.startswith('//') or t.startswith('/*') or (t.strip() == '' and t != '\n'):
            line += t.count('\n'); continue
        if t == '\n':
            line += 1
            if last and ENDS.match(last) and last not in NOEND:
                out.append((';', line - 1)); last = ';'
            continue
        out.append((t, line)); last = t
    out.append(('EOF', line))
    return out

class P:
    def __init__(self, ts): self.t, self.i = ts, 0
    def peek(self): return self.t[self.i][0]
    def next(self): self.i += 1; return self.t[self.i - 1]
    def header(self):
        """tokens up to the opening brace of a block"""
        h, d, l = [], 0, self.t[self.i][1]
        while not (self.peek() == '{' and d == 0 and not (h and h[-1] in (']', '}') and h[0] == 'for' and 'range' in h and False)):
            x = self.next()[0]
            if x in '([': d += 1
            if x in ')]': d -= 1
            h.append(x)
        return h, l
    def block(self):
        assert self.next()[0] == '{'
        out = []
        while self.peek() != '}':
            if self.peek() == ';': self.next(); continue
            out.append(self.stmt())
        self.next()
        return out
    def cases(self):
        assert self.next()[0] == '{'
        cs = []
        while self.peek() != '}':
            k, l = self.next()
            assert k in ('case', 'default'), k
            h = []
            while not (self.peek() == ':'): h.append(self.next()[0])
            self.next()
            b = []
            while self.peek() not in ('case', 'default', '}'):
                if self.peek() == ';': self.next(); continue
                b.append(self.stmt())
            cs.append((k == 'default', text(h), b))
        self.next()
        return cs
    def stmt(self):
        k, l = self.t[self.i]
        if k == 'if':
            self.next(); h, _ = self.header(); a = self.block(); b = []
            if self.peek() == 'else':
                self.next()
                b = [self.stmt()] if self.peek() == 'if' else self.block()
            return ('if', l, h, a, b)
        if k == 'for':
            self.next(); h, _ = self.header(); return ('for', l, h, self.block())
        if k in ('switch', 'select'):
            self.next(); h, _ = self.header(); return (k, l, h, self.cases())
        if k == '{': return ('block', l, self.block())
        # simple statement, possibly holding function literals
        ts, fs, d = [], [], 0
        while True:
            x = self.peek()
            if d == 0 and x in (';', '}'): break
            if x == 'func':
                self.next()
                while self.peek() != '{': ts.append(self.next()[0])
                fs.append(self.block()); ts.append('<func>'); continue
            self.next()
            if x in '([{': d += 1
            if x in ')]}': d -= 1
            if x == ';' : continue
            ts.append(x)
        return ('do', l, ts, fs)

def text(ts):
    s = ''
    for i, t in enumerate(ts):
        if s and re.match(r'\w', t) and re.match(r'.*\w$', s): s += ' '
        elif t in ('==', '!=', '>', '<', '>=', '<=', '&&', '||', ':=', '='): s += ' ' + t + ' '; continue
        s += t + (' ' if t == ',' else '')
    return s.strip()

ACT = re.compile(r'\b((?:srv\.SessionManager\(\)|srv\.sessionManager)\.(?:Add|Delete|Get)|m\.Get(?=\(req\.AuthenticationToken)|session\.Set\w+|session\.SecureChannelId|session\.addBrowseContinuationPoint|session\.removeBrowseContinuationPoint|session\.removePublishRequest|sub\.acknowledge|sub\.SetPublishingMode|sub\.Modify|sub\.DeleteItem|sub\.AppendItem|sub\.Delete|s\.Delete|sm\.Delete|sm\.Add|s\.startPublishing|srv\.writeValue|srv\.readValue|srv\.follow|n3\.callMethodHandler|item\.Modify|item\.SetMonitoringMode|trigger\.\w+TriggeredItem|h\.Read\w+|auth\.Authenticate\w+|q\.Remove)\(')
s = lambda x: '"%s"%%string' % x.replace('"', "'")

def func(fn, name):
    src = open(R + fn).read()
    m = re.search(r'^func (\([^)]*\) )?%s\(.*?^\}' % name, src, re.M | re.S)
    line = src[:m.start()].count('\n') + 1
    body = m.group(0)
    sig = body.index('{\n')
    return P(tokens(body[sig:], line + body[:sig].count('\n'))).block(), line, src[:m.end()].count('\n') + 1

def acts(tx):
    return [('Do', 'Act %s' % s(re.sub('^srv.sessionManager|^m(?=.Get)', 'srv.SessionManager()', m.group(1)))) for m in ACT.finditer(tx)]

def conv(stmts, own, infunc, inlined):
    """list of (constructor text, nested) nodes; own: ch and requestid are those of the request;
    infunc: a return leaves a function literal; inlined: a return is one of handleLatePublishRequest"""
    out, i = [], 0
    while i < len(stmts):
        st = stmts[i]; i += 1
        k = st[0]
        if k == 'if':
            h = st[2]
            if ';' in h:
                j = h.index(';'); out += conv([('do', st[1], h[:j], [])], own, infunc, inlined); h = h[j + 1:]
            out += acts(text(h))
            out.append(('If', text(h), conv(st[3], own, infunc, inlined), conv(st[4], own, infunc, inlined)))
        elif k == 'for':
            assert not acts(text(st[2])) or 'range' in st[2], st
            out += acts(text(st[2]))
            out.append(('Loop', conv(st[3], own, infunc, inlined)))
        elif k in ('switch', 'select'):
            cs = st[3]
            assert not acts(text(st[2])), st
            for _, h, _ in cs: assert not acts(h), h
            assert not any(brk(b) for _, _, b in cs), st[1]
            node = [x for d, _, b in cs if d for x in conv(b, own, infunc, inlined)]
            for d, h, b in reversed(cs):
                if d: continue
                node = [('If', ('case ' + h)[:60], conv(b, own, infunc, inlined), node)]
            out += node
        elif k == 'block':
            out += conv(st[2], own, infunc, inlined)
        else:
            ts, fs = st[2], st[3]
            tx = text(ts)
            if 'removePublishRequest' in tx and ':=' in ts and ts[0] == 'ch': own = False
            m = re.search(r'sub\.handleLatePublishRequest\(', tx)
            if m:
                # /repo/server/subscription.go 502: inlined; its callers test err and then ok
                assert stmts[i][2] == ['err', '!=', 'nil'] and stmts[i + 1][2] == ['ok'], stmts[i]
                i += 2
                out.append(('Scope', conv(func('subscription.go', 'handleLatePublishRequest')[0], own, False, True)))
                continue
            if 'session.addPublishRequest(' in tx:
                # /repo/server/session.go 292: the request is queued, unless the fault of an older one cannot be sent
                assert stmts[i][2] == ['err', '!=', 'nil'], stmts[i]
                i += 1
                out.append(('If', "session.addPublishRequest: err != nil", [('Exit', 'Fail')], [('Do', 'Queue')]))
                continue
            assert ts[0] != 'return' or not acts(tx), st
            for b in fs: out.append(('Scope', conv(b, own, True, False)))
            if ts[0] == 'return':
                if infunc: out.append(('Exit', 'Leave'))
                elif inlined: out.append(('Exit', {'return false, nil': 'Leave', 'return true, nil': 'Return', 'return true, err': 'Fail'}[tx]))
                else: out.append(('Exit', {'return nil': 'Return', 'return err': 'Fail'}[tx]))
                continue
            if ts[0] in ('break', 'continue'):
                assert len(ts) == 1
                out.append(('Exit', ts[0].capitalize())); continue
            m = re.match(r'(session|srv\.serverDiagnosticsSummary)\.(\w+)\+\+$', tx)
            if m:
                out.append(('Do', 'Inc %s' % s(('summary.' if m.group(1) != 'session' else '') + m.group(2)))); continue
            m = re.search(r'\bch\.Write\(&ua\.(\w+)\{', tx)
            if m:
                code = re.search(r'ServiceResult:(ua\.)?(\w+)', tx)
                c = '' if not code else code.group(2) if code.group(1) else '?'
                arg = re.search(r'\}, (\w+),?\s*\)$', tx)
                assert arg and arg.group(1) == 'requestid', (st[1], tx[-80:])
                out.append(('Do', 'Send %s %s %s' % ('true' if own else 'false', s(m.group(1)), s(c)))); continue
            m = re.search(r'\bch\.Abort\((?:ua\.)?(\w+)', tx)
            if m: out.append(('Do', 'Abort %s' % s(m.group(1)))); continue
            out += acts(tx)
    return out

def brk(b):
    for st in b:
        if st[0] == 'do' and st[2][0] == 'break': return True
        if st[0] == 'if' and (brk(st[3]) or brk(st[4])): return True
    return False

def prune(l):
    """drops checks and loops without anything recorded inside"""
    out = []
    for n in l:
        if n[0] == 'If':
            a, b = prune(n[2]), prune(n[3])
            if a == b == []: continue
            out.append(('If', n[1], a, b))
        elif n[0] in ('Loop', 'Scope'):
            b = prune(n[1])
            if n[0] == 'Scope' and b in ([], [('Exit', 'Leave')]): continue
            if b == [] or (n[0] == 'Loop' and all(x == ('Exit', 'Continue') for x in b)): continue
            out.append((n[0], b))
        else:
            out.append(n)
            if n[0] == 'Exit': break
    return out

def show(l, ind):
    if not l: return 'Done'
    n, k = l[0], l[1:]
    pad = '\n' + ' ' * ind
    if n[0] == 'Exit': return 'Exit ' + n[1]
    if n[0] == 'Do': return 'Do (%s) (%s%s)' % (n[1], pad, show(k, ind))
    if n[0] == 'If': return 'If %s (%s%s) (%s) (%s%s)' % (s(n[1]), pad + ' ', show(n[2], ind + 1), show(n[3], ind + 1), pad, show(k, ind))
    return '%s (%s%s) (%s%s)' % (n[0], pad + ' ', show(n[1], ind + 1), pad, show(k, ind))

def main():
    disp = re.search(r'^func \(srv \*Server\) handleRequest\(.*?^\}', open(R + 'server.go').read(), re.M | re.S).group(0)
    hs = re.findall(r'case \*ua\.(\w+)Request:\s*return srv\.(\w+)\(', disp)
    o = '''(** The service handlers, transcribed by tools/handler_table.py from
    /repo/server/server_service_set.go in the language of Handlers.v. *)
From Coq Require Import List String.
From Verif Require Import Handlers.
Import ListNotations.

'''
    names = []
    for svc, h in hs:
        b, l0, l1 = func('server_service_set.go', h)
        o += '(** /repo/server/server_service_set.go %d-%d %s *)\nDefinition h_%s : prog :=\n  %s.\n\n' % (l0, l1, h, svc, show(prune(conv(b, True, False, False)), 2))
        names.append(svc)
    o += '(** /repo/server/server.go 430-505 handleRequest: the request types it passes to a handler of the server *)\nDefinition handlers : list (string * prog) := [\n' + ';\n'.join('  (%s, h_%s)' % (s(n), n) for n in names) + '\n].\n'
    fields(o)

def fields(o):
    src = open(R + 'session_manager.go').read()
    m = re.search(r'ua\.SessionDiagnosticsDataType\{(.*?)\n\t\t\}', src, re.S)
    rows = re.findall(r'(\w+):\s*ua\.ServiceCounterDataType\{TotalCount: s\.(\w+), ErrorCount: s\.(\w+)\}', m.group(1))
    l = src[:m.start()].count('\n') + 1
    o += '\n(** /repo/server/session_manager.go %d-%d: counters of the SessionDiagnostics value: field, total, errors *)\nDefinition diagnostics_fields : list (string * (string * string)) := [\n' % (l, l + m.group(0).count('\n'))
    o += ';\n'.join('  (%s, (%s, %s))' % (s(a), s(b), s(c)) for a, b, c in rows) + '\n].\n'
    rows = re.findall(r'NewQualifiedName\(0, "(\w+)"\).*?SetReadValueHandler\(func\(session \*Session, req ua\.ReadValueID\) ua\.DataValue \{\s*(.*?)\n\t\}\)', src, re.S)
    o += '\n(** the same file: the variables below SessionDiagnostics: browse name, total, errors *)\nDefinition diagnostics_variables : list (string * (string * string)) := [\n'
    vs = []
    for n, b in rows:
        m = re.match(r'return ua\.NewDataValue\(ua\.ServiceCounterDataType\{TotalCount: s\.(\w+), ErrorCount: s\.(\w+)\}', b)
        if m: vs.append((n, m.group(1), m.group(2)))
    o += ';\n'.join('  (%s, (%s, %s))' % (s(a), s(b), s(c)) for a, b, c in vs) + '\n].\n'
    if '--check' in sys.argv: print('same' if open(OUT).read() == o else 'different')
    else: open(OUT, 'w').write(o)

main()
