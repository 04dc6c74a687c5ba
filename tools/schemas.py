#!/usr/bin/env python3
"""Generates rocq/theories/JsSchemas.v: the JSON schemas embedded in /repo as JSON values.
The %s of the credential templates (additional required members) is a parameter."""
import json, re
OUT = "/verif/rocq/theories/JsSchemas.v"
SRC = [("cred1", "verifiable/credential.go", "SchemaTemplateV1"), ("cred2", "verifiable/credential.go", "SchemaTemplateV2"),
       ("pres1", "verifiable/presentation.go", "v1BasePresentationSchema"), ("pres2", "verifiable/presentation.go", "v2BasePresentationSchema"),
       ("def1", "presexch/schema.go", "DefinitionJSONSchemaV1"), ("def2", "presexch/schema.go", "DefinitionJSONSchemaV2")]
def nodup(pairs):
    ks = [k for k, _ in pairs]
    assert len(ks) == len(set(ks)), ks
    return dict(pairs)
def q(s):
    assert all(32 <= ord(c) < 127 for c in s), s
    return '"' + s.replace('"', '""') + '"'
def coq(v):
    if v is None: return "JNull"
    if v is True: return "JBool true"
    if v is False: return "JBool false"
    if isinstance(v, int): return "jnum %d" % v
    if isinstance(v, str): return "JStr " + q(v)
    if isinstance(v, list): return "JArr [" + "; ".join(coq(x) for x in v) + "]"
    return "JObj [" + "; ".join("(%s, %s)" % (q(k), coq(x)) for k, x in v.items()) + "]"
def wrap(s, ind="  "):
    """break at '; (' so that lines stay short"""
    out, line = [], ind
    for part in re.split(r"(?<=; )", s):
        if len(line) + len(part) > 150 and line.strip(): out.append(line.rstrip()); line = ind + "  "
        line += part
    out.append(line.rstrip())
    return "\n".join(out)
def main():
    o = ['(** Generated by tools/schemas.py from the sources in /repo: the JSON schemas embedded in vc-go, as JSON values.',
         '    Every entry of "definitions"/"$defs" and of the top-level "properties" has a name of its own. *)',
         'From Verif Require Import GoBase.', '']
    for name, path, const in SRC:
        src = open("/repo/" + path).read()
        m = re.search(r"const %s = `(.*?)`" % const, src, re.S)
        first = src[:m.start()].count("\n") + 1; last = src[:m.end()].count("\n") + 1
        text = m.group(1)
        par = "%s" in text
        assert text.count("%") == text.count("%s") <= 1
        if par: text = text.replace("%s", ', "%s"')
        doc = json.loads(text, object_pairs_hook=nodup)
        o.append("(** ** %s:%d-%d %s *)" % (path, first, last, const))
        parts = {}
        for sec in ("definitions", "$defs", "properties"):
            if sec in doc:
                items = []
                for k, v in doc[sec].items():
                    n = "%s_%s_%s" % (name, {"definitions": "d", "$defs": "d", "properties": "p"}[sec], re.sub(r"\W", "", k))
                    o.append("Definition %s : json :=\n%s." % (n, wrap(coq(v))))
                    items.append("(%s, %s)" % (q(k), n))
                parts[sec] = "JObj [" + "; ".join(items) + "]"
        mem = []
        for k, v in doc.items():
            if k in parts: mem.append("(%s, %s)" % (q(k), parts[k]))
            elif k == "required" and par:
                assert v[-1] == "%s"
                mem.append('("required", JArr ([%s] ++ map JStr req))' % "; ".join(coq(x) for x in v[:-1]))
            else: mem.append("(%s, %s)" % (q(k), coq(v)))
        o.append("Definition %s%s : json :=\n%s.\n" % (name, " (req : list string)" if par else "", wrap("JObj [" + "; ".join(mem) + "]")))
    open(OUT, "w").write("\n".join(o))
main()
