#!/usr/bin/env python3
"""Generate rocq/theories/Gen/Source.v (the items of /repo/fileid/data.xml) and Gen/Header.v
(the lines of /repo/fileid/magic.h and /repo/fileid/oless/olessmagic.h with signatures) and Gen/Coverage.v
(the formats of /repo/coverage.csv)."""
import re
D = '/verif/rocq/theories/Gen/'
def q(s):
    assert all(32 <= ord(c) < 127 for c in s), s
    return 'B "%s"' % s.replace('"', '""')
def wrap(name, rows):
    return 'Definition %s := [\n%s].\n' % (name, ';\n'.join(rows))
HEAD = ('From Coq Require Import List NArith Strings.String.\nFrom Verif Require Import Lib.Bytes%s.\n'
        'Import ListNotations.\nLocal Open Scope N_scope.\n\n')
# data.xml
src = open('/repo/fileid/data.xml', encoding='utf-8-sig').read()
src = re.sub(r'<!--.*?-->', lambda m: '\n' * m.group(0).count('\n'), src, flags=re.S)
assert '&' not in src
def items(section):
    start = src.index('<%s>' % section); end = src.index('</%s>' % section)
    rows = []
    for m in re.finditer(r'<Item((?:\s+\w+\s*=\s*"[^"]*")*)\s*>([^<]*)</Item>', src[start:end]):
        line = src.count('\n', 0, start + m.start()) + 1
        attrs = re.findall(r'(\w+)\s*=\s*"([^"]*)"', m.group(1))
        rows.append('  (* data.xml:%d *) mkItem [%s] (%s)' %
                    (line, '; '.join('(%s, %s)' % (q(k), q(v)) for k, v in attrs), q(m.group(2))))
    assert len(rows) == src[start:end].count('<Item ')
    return rows
s = '(** The items of /repo/fileid/data.xml: their attributes and their text.  Generated from that file by\n    tools/gen_source.py; one item per source line, in source order. *)\n'
s += HEAD % ' Gen.Model'
s += wrap('magic_items : list item', items('Items')) + '\n' + wrap('ole_items : list item', items('OlessItems'))
open(D + 'Source.v', 'w').write(s)
# headers
def lines(path, start):
    return [(i, l.strip()) for i, l in enumerate(open(path, encoding='utf-8-sig').read().split('\n'), 1) if l.strip().startswith(start)]
def rows(name, path, start):
    return ['  (* %s:%d *) %s' % (name, i, q(l)) for i, l in lines(path, start)]
s = '(** Lines of /repo/fileid/magic.h and /repo/fileid/oless/olessmagic.h without the white space around\n    them.  Generated from those files by tools/gen_source.py. *)\n'
s += HEAD % ''
s += wrap('magic_arrays : list bytes', rows('magic.h', '/repo/fileid/magic.h', 'unsigned char')) + '\n'
s += wrap('magic_entries : list bytes', rows('magic.h', '/repo/fileid/magic.h', 'list.push_back')) + '\n'
s += wrap('ole_entries : list bytes', rows('olessmagic.h', '/repo/fileid/oless/olessmagic.h', 'list.push_back'))
open(D + 'Header.v', 'w').write(s)
# coverage.csv
import csv
rows = list(csv.reader(open('/repo/coverage.csv', encoding='utf-8-sig', newline='')))[1:]
s = '(** The rows of /repo/coverage.csv: extension, parent format, name and level.  Generated from that file by\n    tools/gen_source.py; the links and notes are left out. *)\n'
s += HEAD % ''
s += 'Record format := mkFormat { f_extension : bytes; f_parent : bytes; f_name : bytes; f_level : bytes }.\n\n'
s += wrap('coverage : list format', ['  mkFormat ' + ' '.join('(%s)' % q(c) for c in r[:4]) for r in rows])
open(D + 'Coverage.v', 'w').write(s)
