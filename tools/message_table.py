#!/usr/bin/env python3
"""Writes rocq/theories/MessageTable.v from the type switches of /repo/client/client_secure_channel.go,
/repo/client/client_service_set.go, /repo/server/server_secure_channel.go and /repo/server/server.go."""
import re, sys
R = '/repo/'
rd = lambda f: open(R + f).read()
ids = dict(re.findall(r'^\s*(ObjectID\w+)\s+NodeID\s*=\s*NewNodeIDNumeric\(0,\s*(\d+)\)', rd('ua/nodeids.generated.go'), re.M))
cl, sv = rd('client/client_secure_channel.go'), rd('server/server_secure_channel.go')
def func(src, name):
    m = re.search(r'^func (\([^)]*\) )?%s\(.*?^\}' % name, src, re.M | re.S)
    return m.group(0), src[:m.start()].count('\n') + 1
def sends(src, name):
    b, l = func(src, name)
    return re.findall(r'case \*ua\.(\w+):\s*if err := bodyEncoder\.WriteNodeID\(ua\.(\w+)\)', b), l
def reads(src, name):
    b, l = func(src, name)
    return re.findall(r'case ua\.(ObjectID\w+):\s*temp = new\(ua\.(\w+)\)', b), l
def one(src, name, t):
    b, l = func(src, name)
    return [(t, x) for x in re.findall(r'bodyEncoder\.WriteNodeID\(ua\.(\w+)\)', b)], l
special = [t for t in re.findall(r'case \*ua\.(\w+):', func(cl, 'sendRequest')[0])]
cs = [p for p in sends(cl, 'sendServiceRequest')[0] if p[0] not in special]
cs += one(cl, 'sendOpenSecureChannelRequest', 'OpenSecureChannelRequest')[0] + sends(cl, 'sendCloseSecureChannelRequest')[0]
ss = sends(sv, 'sendServiceResponse')[0] + one(sv, 'sendOpenSecureChannelResponse', 'OpenSecureChannelResponse')[0]
sr, cr = reads(sv, 'readRequest')[0], reads(cl, 'readResponse')[0]
hs = []
sets = [rd('server/server_service_set.go'), sv]
for t, h in re.findall(r'case \*ua\.(\w+):\s*return \w+\.(\w+)\(', func(rd('server/server.go'), 'handleRequest')[0]):
    b = next(func(s, h)[0] for s in sets if re.search(r'\) %s\(' % h, s))
    a = []
    for x in re.findall(r'&ua\.(\w+Response|ServiceFault)\{', b):
        if x not in a: a.append(x)
    hs.append((t, h, a))
ms = re.findall(r'^func \(ch \*(?:clientSecureChannel|Client)\) (\w+)\(ctx context.Context, request \*ua\.(\w+)\).*?return response\.\(\*ua\.(\w+)\), nil', rd('client/client_service_set.go'), re.M | re.S)
s = lambda x: '"%s"%%string' % x
def lst(l): return '[\n' + ';\n'.join('  ' + x for x in l) + '\n].\n'
o = '''(** The messages client and server put on a channel, transcribed by tools/message_table.py. *)
From Coq Require Import ZArith List String.
Import ListNotations.
Open Scope Z_scope.

(** /repo/client/client_secure_channel.go 506 sendRequest, 549, 744 and 911: structure, identifier written before it *)
Definition client_sends : list (string * Z) := ''' + lst('(%s, %s)' % (s(t), ids[i]) for t, i in cs) + '''
(** /repo/server/server_secure_channel.go 1366-1453 readRequest: identifier read, structure decoded after it *)
Definition server_reads : list (Z * string) := ''' + lst('(%s, %s)' % (ids[i], s(t)) for i, t in sr) + '''
(** /repo/server/server.go 430 handleRequest: request, structures its handler answers with itself.
    handlePublish leaves the PublishResponse to the subscription. *)
Definition server_handles : list (string * list string) := ''' + lst('(%s, [%s])' % (s(t), '; '.join(s(x) for x in a)) for t, h, a in hs) + '''
(** /repo/server/server_secure_channel.go 430-445 and 619-900: structure, identifier written before it *)
Definition server_sends : list (string * Z) := ''' + lst('(%s, %s)' % (s(t), ids[i]) for t, i in ss) + '''
(** /repo/client/client_secure_channel.go 1628-1717 readResponse: identifier read, structure decoded after it *)
Definition client_reads : list (Z * string) := ''' + lst('(%s, %s)' % (ids[i], s(t)) for i, t in cr) + '''
(** /repo/client/client_service_set.go: request of each method, structure its answer is asserted to be *)
Definition client_methods : list (string * string) := ''' + lst('(%s, %s)' % (s(a), s(b)) for _, a, b in ms)
out = '/verif/rocq/theories/MessageTable.v'
if '--check' in sys.argv: print('same' if open(out).read() == o else 'different', len(cs), len(sr), len(hs), len(ss), len(cr), len(ms))
else: open(out, 'w').write(o)
