#!/usr/bin/env python3
"""Print a Coq record with one setter per field.
usage: record.py NAME PREFIX field:type ...   (types with spaces may use _ for the space)"""
import sys
name, prefix, *fields = sys.argv[1:]
fs = [f.split(':') for f in fields]
mk = 'mk' + name[0].upper() + name[1:]
print(f'Record {name} := {mk} {{')
print(';\n'.join(f'  {prefix}{f} : {t.replace("_", " ")}' for f, t in fs))
print('}.\n')
for f, t in fs:
    args = ' '.join('v' if g == f else f'({prefix}{g} s)' for g, _ in fs)
    print(f'Definition set_{prefix}{f} (v : {t.replace("_", " ")}) (s : {name}) : {name} := {mk} {args}.')
