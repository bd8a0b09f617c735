#!/usr/bin/env python3
"""Turns the Jinja templates of the Python validator into Coq strings.

usage: templates.py REPO > rocq/theories/PyTemplates.v

Reads python/protoc_gen_validate/validator.py as text and prints the template of
every function NAME_template as the string NAME_tmpl.  The escapes \\" and \\' of
the Python literal are resolved; any other backslash is an error.
"""
import re, sys

PATH = 'python/protoc_gen_validate/validator.py'
src = open(sys.argv[1] + '/' + PATH).read()

print('(** The Jinja templates of %s, printed by tools/templates.py. *)' % PATH)
print('Require Import Coq.Strings.String.')
print('Local Open Scope string_scope.')
for m in re.finditer(r'^def (\w+)_template\(.*?^    \w+ = """(.*?)"""$', src, re.S | re.M):
    name, text = m.group(1), m.group(2)
    text = text.replace('\\"', '"').replace("\\'", "'")
    assert '\\' not in text and text.isascii() and '\t' not in text and '\r' not in text
    first = src[:m.start(2)].count('\n') + 1
    last = src[:m.end(2)].count('\n') + 1
    print()
    print('(** %s_template, %d-%d. *)' % (name, first, last))
    print('Definition %s_tmpl : string := "%s".' % (name, text.replace('"', '""')))
