#!/usr/bin/env python3
"""Generate rocq/theories/Magic/Table.v from /repo/fileid/magic.h (read as text)."""
import re
src = open('/repo/fileid/magic.h').read()
lines = src.split('\n')
arr = {}
for m in re.finditer(r'unsigned char (\w+)\[(\d+)\] = \{([^}]*)\};', src):
    arr[m.group(1)] = (int(m.group(2)), [int(x, 16) for x in m.group(3).split(',')])
parsers = {
    'Exec::Detailer': 'PExec', 'Exec::MachO::Detailer': 'PMachO',
    'document::dwg::DwgHelper': 'PDwg', 'document::wp::Detailer': 'PWordPerfect',
    'media::asf::Detailer': 'PAsf', 'media::jpeg::Detailer': 'PJpeg',
    'media::riff::RIFFHelper': 'PRiff', 'media::mp4::Detailer': 'PMp4',
    'oless::Detailer': 'POless', 'zip::Detailer': 'PZip'}
out = ['(** The signature table: /repo/fileid/magic.h, the arrays magic_* (lines 8-159) and the',
       '    entries of initList (lines 163-315).  Generated from that file by',
       '    tools/gen_magic.py; one entry per source line, in source order. *)',
       'From Coq Require Import List NArith Strings.String.',
       'From Verif Require Import Lib.Bytes.',
       'Import ListNotations.', 'Local Open Scope N_scope.', '',
       '(** The content parsers referenced by the table (the function pointer column). *)',
       'Inductive parser : Type :=',
       '| PExec | PMachO | PZip | POless | PDwg | PWordPerfect | PMp4 | PAsf | PRiff | PJpeg.', '',
       '(** common.hpp:634-657: struct MagicInfo *)',
       'Record MagicInfo := mkMagic {',
       '  mi_ext : bytes; mi_name : bytes; mi_version : bytes;',
       '  mi_offset : N; mi_size : N; mi_magic : bytes; mi_func : option parser }.', '']
ents = []
for ln, l in enumerate(lines, 1):
    m = re.search(r'list\.push_back\(new common::MagicInfo\("([^"]*)", "([^"]*)", "([^"]*)", (\d+), (\d+), (\w+), ([\w:]+)\)\);', l)
    if not m:
        assert 'push_back' not in l, l
        continue
    e, n, v, off, size, a, f = m.groups()
    decl, bs = arr[a]
    assert decl == len(bs)
    fn = 'None' if f == 'nullptr' else 'Some ' + parsers[f]
    ents.append('  (* magic.h:%d *) mkMagic (B "%s") (B "%s") (B "%s") %s %s [%s] (%s)' %
                (ln, e, n, v, off, size, '; '.join('x%02x' % b for b in bs), fn))
out.append('Definition table : list MagicInfo := [')
out.append(';\n'.join(ents))
out.append('].')
open('/verif/rocq/theories/Magic/Table.v', 'w').write('\n'.join(out) + '\n')
print(len(ents))
