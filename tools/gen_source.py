#!/usr/bin/env python3
"""Copy the text of /repo/ublox/src/ubx_packets/{packets,cfg_val,types}.rs into SourcePackets.v, SourceCfg.v and SourceTypes.v, that of
/repo/ublox_derive/src/output.rs into SourceOutput.v and the tests of tests.rs (not their helper functions) into SourceTests.v.
The text of /repo/ublox/src/parser.rs before its tests goes into SourceParser.v, that of ubx_packets.rs into SourceUbx.v.

With the argument --check: compare the text in the .v files with /repo instead of writing."""
import os, re, sys
REPO = '/repo/ublox/src/ubx_packets/'
SRC = '/repo/ublox/src/'
DERIVE = '/repo/ublox_derive/src/'
OUT = os.path.join(os.path.dirname(os.path.abspath(__file__)), '../rocq/theories/')
N = 200
def text(path):
    s = open(path, encoding='utf-8').read()
    if path.endswith('tests.rs'): s = s[:s.index('fn run_compare_test')]
    if path.endswith('parser.rs'): s = s[:s.index('#[cfg(test)]')]
    return s
def emit(dir, rs, v, name):
    lines = text(dir + rs).split('\n')
    out = ['(** * The text of %s\n\n    Copied by tools/gen_source.py, which also compares it with the file; a quote is written twice, as Coq wants it. *)' % rs,
           'From Coq Require Import String.', 'Open Scope string_scope.', '']
    parts = []
    for i in range(0, len(lines), N):
        chunk = lines[i:i+N]
        body = '\n'.join(chunk)
        if i + N < len(lines): body += '\n'
        parts.append('%s_%d' % (name, len(parts) + 1))
        out.append('(** %s %d-%d *)\nDefinition %s : string := "%s".\n' % (rs, i + 1, i + len(chunk), parts[-1], body.replace('"', '""')))
    out.append('Definition %s : string :=\n  %s.\n' % (name, ' ++ '.join(parts)))
    open(OUT + v, 'w', encoding='utf-8').write('\n'.join(out))
def check(dir, rs, v):
    s = open(OUT + v, encoding='utf-8').read()
    got = ''.join(m.group(1).replace('""', '"') for m in re.finditer(r': string := "((?:[^"]|"")*)"\.\n', s))
    print(rs, 'equal' if got == text(dir + rs) else 'DIFFERENT')
for dir, rs, v, name in ((REPO, 'packets.rs', 'SourcePackets.v', 'packets_rs'), (REPO, 'cfg_val.rs', 'SourceCfg.v', 'cfg_val_rs'),
                         (REPO, 'types.rs', 'SourceTypes.v', 'types_rs'),
                         (SRC, 'parser.rs', 'SourceParser.v', 'parser_rs'), (SRC, 'ubx_packets.rs', 'SourceUbx.v', 'ubx_packets_rs'),
                         (DERIVE, 'output.rs', 'SourceOutput.v', 'output_rs'), (DERIVE, 'tests.rs', 'SourceTests.v', 'tests_rs')):
    if '--check' not in sys.argv: emit(dir, rs, v, name)
    check(dir, rs, v)
