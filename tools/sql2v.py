#!/usr/bin/env python3
"""Transcribe /repo/pyulog/sql/pyulog.N.sql into rocq/theories/ModelSchema.v (text only)."""
import re, sys
def aff(t):
    t = t.upper()
    if 'INT' in t: return 'AInt'
    if 'CHAR' in t or 'CLOB' in t or 'TEXT' in t: return 'AText'
    if 'BLOB' in t or t == '': return 'ABlob'
    if 'REAL' in t or 'FLOA' in t or 'DOUB' in t: return 'AReal'
    return 'ANum'
def lit(s): return f'(lit "{s}")'
def ident(s): return f'(lit "{s.lower()}")'
def coldef(text):
    """one column; returns (coq, unique?)"""
    m = re.match(r'(\w+)\s+(\w+)(.*)$', text.strip(), re.S)
    name, ty, rest = m.group(1), m.group(2), m.group(3).strip()
    key = 'true' if rest == 'PRIMARY KEY AUTOINCREMENT' else 'false'
    uniq = rest == 'UNIQUE'
    r = re.match(r'REFERENCES (\w+) \(Id\)( ON DELETE CASCADE)?$', rest)
    ref = 'None'
    if r: ref = f'(Some ({ident(r.group(1))}, {"true" if r.group(2) else "false"}))'
    elif rest not in ('', 'UNIQUE', 'PRIMARY KEY AUTOINCREMENT'): raise SystemExit('column? ' + text)
    return f'mkCD {lit(name)} {aff(ty)} {ref} {key}', (name if uniq else None)
def stmt(s):
    s = ' '.join(s.split())
    if s == 'BEGIN': return 'SBegin'
    if s == 'COMMIT': return 'SCommit'
    m = re.match(r'PRAGMA foreign_keys=(on|off)$', s)
    if m: return f'SForeignKeys {"true" if m.group(1) == "on" else "false"}'
    m = re.match(r'CREATE TABLE IF NOT EXISTS (\w+) \((.*)\)$', s)
    if m:
        body, parts, depth, cur = m.group(2), [], 0, ''
        for ch in body:
            if ch == '(': depth += 1
            if ch == ')': depth -= 1
            if ch == ',' and depth == 0: parts.append(cur); cur = ''
            else: cur += ch
        parts.append(cur)
        cols, uniq = [], []
        for p in parts:
            u = re.match(r'UNIQUE \((.*)\)$', p.strip())
            if u: uniq.append('[' + '; '.join(lit(x.strip()) for x in u.group(1).split(',')) + ']'); continue
            c, q = coldef(p); cols.append(c)
            if q: uniq.append(f'[{lit(q)}]')
        return f'SCreate {lit(m.group(1))} (mkTD\n      [' + ';\n       '.join(cols) + ']\n      [' + '; '.join(uniq) + '])'
    m = re.match(r'INSERT OR IGNORE INTO (\w+) \((.*?)\) SELECT (.*) FROM (\w+)$', s)
    if m:
        if m.group(2) != m.group(3): raise SystemExit('columns differ: ' + s)
        return f'SCopy {lit(m.group(1))} {lit(m.group(4))} (Some [' + '; '.join(lit(x.strip()) for x in m.group(2).split(',')) + '])'
    m = re.match(r'INSERT OR IGNORE INTO (\w+) SELECT \* FROM (\w+)$', s)
    if m: return f'SCopy {lit(m.group(1))} {lit(m.group(2))} None'
    m = re.match(r'DROP TABLE IF EXISTS (\w+)$', s)
    if m: return f'SDrop {lit(m.group(1))}'
    m = re.match(r'ALTER TABLE (\w+) RENAME TO (\w+)$', s)
    if m: return f'SRename {lit(m.group(1))} {lit(m.group(2))}'
    m = re.match(r'ALTER TABLE (\w+) RENAME COLUMN (\w+) TO (\w+)$', s)
    if m: return f'SRenameCol {lit(m.group(1))} {lit(m.group(2))} {lit(m.group(3))}'
    m = re.match(r'ALTER TABLE (\w+) ADD COLUMN (.*)$', s)
    if m: return f'SAddCol {lit(m.group(1))} ({coldef(m.group(2))[0]})'
    m = re.match(r'UPDATE (\w+) SET (\w+) = CAST\((\w+) AS INT\)$', s)
    if m: return f'SCast {lit(m.group(1))} {lit(m.group(2))} {lit(m.group(3))}'
    m = re.match(r'CREATE INDEX IF NOT EXISTS (\w+) ON (\w+)\((\w+)\)$', s)
    if m: return f'SIndex {lit(m.group(1))} {lit(m.group(2))} {lit(m.group(3))}'
    raise SystemExit('statement? ' + s)
out = ['(** The migration scripts (pyulog/sql/pyulog.N.sql), transcribed statement by statement by',
       '    tools/sql2v.py. *)', 'From Verif Require Import Base Dict Sql.', '']
for n in range(1, 6):
    text = open(f'/repo/pyulog/sql/pyulog.{n}.sql').read()
    lines = len(text.splitlines())
    text = re.sub(r'--[^\n]*', '', text)
    ss = [stmt(x) for x in text.split(';') if x.strip()]
    out.append(f'(** pyulog/sql/pyulog.{n}.sql 1-{lines} *)')
    out.append(f'Definition script{n} : list stmt :=\n  [ ' + ';\n    '.join(ss) + ' ].\n')
open('/verif/rocq/theories/ModelSchema.v', 'w').write('\n'.join(out))
