"""Writes rocq/theories/Tests/Test*.v: the test suite of the repository (/repo/tests, read as text), run on the model.

Each entry names a test function and lists what it asserts, as boolean expressions of the model.  Signatures, keys and
the clock are those of Tests/TestKit.v.
"""
import ast
import re
import sys

OUT = "rocq/theories/Tests/"


def U(s):
    if all(32 <= ord(c) < 127 for c in s):
        return '(u "%s")' % s.replace('"', '""')
    return "[" + "; ".join(str(ord(c)) for c in s) + "]"


class R(str):
    """a Coq term that is a value"""


def V(x):
    if isinstance(x, R):
        return "(%s)" % x
    if x is None:
        return "VNone"
    if x is True or x is False:
        return "(VBool %s)" % str(x).lower()
    if isinstance(x, int):
        return "(VInt (%d))" % x
    if isinstance(x, str):
        return "(VStr %s)" % U(x)
    if isinstance(x, list):
        return "(VList [%s])" % "; ".join(V(y) for y in x)
    if isinstance(x, dict):
        return "(VDict %s)" % D(x)
    raise TypeError(x)


def D(x=None, **kw):
    d = dict(x or {}, **kw)
    return "[" + "; ".join("(%s, %s)" % (U(k), V(v)) for k, v in d.items()) + "]"


def K(*names):
    return "[" + "; ".join(U(n) for n in names) + "]"


tests = {}
cur = None


def section(f):
    global cur
    cur = f
    tests[f] = []


def t(name, *checks, let=()):
    tests[cur].append((name, list(checks), list(let)))


def oa(c):
    return "(cdef C_oauth2_%s)" % c


def oi(c):
    return "(cdef C_oidc_%s)" % c


def ida(c):
    return "(cdef C_ida_%s)" % c


def new(C, x=None, **kw):
    return "(construct %s %s)" % (C, D(x, **kw))


def bind(r, v, e):
    return "(do %s <- %s ; %s)" % (v, r, e)


def url(C, r):
    return "(do m <- %s ; url %s m)" % (r, C)


def js(C, r):
    return "(do m <- %s ; to_json %s m)" % (r, C)


def rurl(C, r):
    return "(do x <- %s ; read_url %s x)" % (r, C)


def rjs(C, r):
    return "(do x <- %s ; read_json %s x)" % (r, C)


def rj(C, text):
    return "(read_json %s %s)" % (C, U(text))


def eq(C, r, s):
    return "match %s, %s with Ok a, Ok b => msg_eq %s %s a b | _, _ => false end" % (r, s, C, C)


def loads(r, x):
    return "value_is (do x <- %s ; json_loads x) %s" % (r, V(x))


def vf(c, r, args="(args [])", env="no_env"):
    """m.verify(**args) of a message that was made without exception"""
    return "(match %s with Ok d => verify %s %s None %s d | Err e => ([], Err e) end)" % (r, env, args, c)


def keys(r, *ks):
    return "keys_are %s %s" % (r, K(*ks))


def item(r, k, v):
    return "item_is %s %s %s" % (r, U(k), V(v))


def raises(e, r):
    return "raises E%s %s" % (e, r)


def vraises(e, r):
    return "raises E%s (snd %s)" % (e, r)


exec(open("tools/testcases.py").read())

HEAD = '''(** Generated by tools/mktests.py: the tests of /repo/tests/%s on the model. *)
From Coq Require Import List NArith ZArith QArith Bool String.
From Verif Require Import Base.Ustr Base.Percent Model.Cls Model.Value Model.Pspec Model.Tables Model.Json Model.Message Model.Env Model.Verify
  Model.Jose Model.Dispatch Model.Serializers Model.RequestObject Model.IdentityAssurance Model.Calendar Model.TimeUtil Model.Config Tests.TestKit.
Import ListNotations.
Open Scope list_scope.
Open Scope N_scope.
'''

for f, l in tests.items():
    src = open("/repo/tests/" + f).read()
    where = {}
    for n in ast.walk(ast.parse(src)):
        if isinstance(n, ast.ClassDef):
            for m in n.body:
                if isinstance(m, ast.FunctionDef):
                    where[n.name + "." + m.name] = (m.lineno, m.end_lineno)
        elif isinstance(n, ast.FunctionDef):
            where.setdefault(n.name, (n.lineno, n.end_lineno))
    name = "Test" + f[5:7]
    o = [HEAD % f, preludes.get(f, "")]
    seen = {}
    for (n, checks, let) in l:
        a, b = where[n]
        ident = n.replace(".", "_")
        seen[ident] = seen.get(ident, 0) + 1
        if seen[ident] > 1:
            ident += "_%d" % seen[ident]
        body = "".join("let %s := %s in " % x for x in let)
        o.append("(** %s, %s:%d-%d *)\nExample %s : %sall [\n  %s] = true.\nProof. vm_compute. reflexivity. Qed.\n"
                 % (n, f, a, b, ident, "(" + body if let else "", ";\n  ".join(checks)) if False else
                 "(** %s:%d-%d *)\nExample %s :\n  %sall [\n  %s]%s = true.\nProof. vm_compute. reflexivity. Qed.\n"
                 % (f, a, b, ident, "(" + body if let else "", ";\n  ".join(checks), ")" if let else ""))
    miss = [n for n in where if n.split(".")[-1].startswith("test") and n not in {x[0] for x in l}
            and not any(n == y.split(".")[-1] for y in where if "." in y)]
    open(OUT + name + ".v", "w").write("\n".join(o))
    print(f, len(l), "not run:", miss)
