#!/usr/bin/env python3
"""Writes theories/Conf_Golden.v from the recorded test data of the project.

For each file of /repo/internal/card/testdata the generated file has the base64
text, the golden JSON as a [json] value, and the enumeration names of the proto
files.  It is a transcription: all computation is done in Coq.
Run from /verif:  python3 tools/golden.py
"""
import json, os, re

CARD = '/repo/internal/card/testdata'
PROTO = '/repo/proto/wayplatform/connect/tachograph'
OUT = '/verif/rocq/theories/Conf_Golden.v'

ENUMS = [('dd/v1/nation_numeric', 'NationNumeric'), ('dd/v1/equipment_type', 'EquipmentType'),
         ('dd/v1/event_fault_type', 'EventFaultType'),
         ('dd/v1/entry_type_daily_work_period', 'EntryTypeDailyWorkPeriod'),
         ('dd/v1/specific_condition_type', 'SpecificConditionType'),
         ('dd/v1/clock_stop_mode', 'ClockStopMode'), ('dd/v1/encoding', 'Encoding'),
         ('card/v1/card_type', 'CardType')]

out = ['(** Recorded test data of the project, transcribed by /verif/tools/golden.py:',
       '    the base64 files and golden JSON files of /repo/internal/card/testdata and',
       '    the value names of the enumerations they mention. *)', '',
       'From Coq Require Import String.', 'From Verif Require Import Base Conf_Json.',
       'Local Open Scope string_scope.', 'Local Open Scope list_scope.', '']

def q(s):
    assert all(32 <= ord(c) < 127 for c in s)
    return '"' + s.replace('"', '""') + '"'

for path, name in ENUMS:
    text = open(f'{PROTO}/{path}.proto').read()
    text = re.sub(r'//[^\n]*', '', text)
    body = text[text.index(f'enum {name} '):]
    vals = re.findall(r'^  (\w+) = (\d+)\s*[;\[]', body, re.M)
    coq = 'names_' + path.split('/')[-1]
    out.append(f'(** proto {path}.proto *)')
    out.append(f'Definition {coq} : names :=')
    rows = [f'({n}, {q(s)})' for s, n in vals]
    out.append('  [' + ';\n   '.join(rows) + '].')
    out.append('')

strings = {}
def s_(s):
    if s not in strings:
        strings[s] = f's{len(strings)}'
    return strings[s]

def term(x):
    if isinstance(x, bool):
        return 'JB true' if x else 'JB false'
    if isinstance(x, int):
        return f'JN {x}' if x >= 0 else f'JN ({x})'
    if isinstance(x, str):
        return 'JS ' + s_(x)
    if isinstance(x, list):
        return 'JA [' + ';\n '.join(term(v) for v in x) + ']'
    return 'JO [' + '; '.join(f'({s_(k)}, {term(v)})' for k, v in x.items()) + ']'

defs = []
for f in sorted(os.listdir(CARD)):
    base = f.split('.')[0]
    if f.endswith('.b64'):
        text = open(f'{CARD}/{f}').read().strip()
        if not text:
            continue
        # long texts in pieces of whole base64 groups
        parts = [text[i:i + 72] for i in range(0, len(text), 72)]
        defs.append(f'(** {f} *)')
        defs.append(f'Definition data_{base} : bytes := Eval vm_compute in')
        defs.append('  flat_map of_b64\n   [' + ';\n    '.join(q(p) for p in parts) + '].')
        defs.append('')
    elif f.endswith('.golden.json'):
        defs.append(f'(** {f} *)')
        defs.append(f'Definition golden_{base} : json :=\n {term(json.load(open(f"{CARD}/{f}")))}.')
        defs.append('')

for s, n in strings.items():
    out.append(f'Definition {n} : string := {q(s)}.')
out.append('')
out += defs
open(OUT, 'w').write('\n'.join(out))
