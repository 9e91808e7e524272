"""Writes rocq/theories/CellTable.v from the text of /repo/src/INTERP_KERNEL/CellModel.cxx (the constructor, a list of assignments)."""
import re
src = open('/repo/src/INTERP_KERNEL/CellModel.cxx').read().split('\n')
geo = open('/repo/src/INTERP_KERNEL/Bases/NormalizedGeometricTypes').read()
enum = {m.group(1): int(m.group(2)) for m in re.finditer(r'(NORM_\w+)\s*=\s*(\d+)', geo)}
cells, cur = {}, None
for ln in range(303, 1515):
    l = src[ln - 1].strip()
    m = re.match(r'case (NORM_\w+):', l)
    if m:
        cur = m.group(1)
        cells[cur] = {'start': ln, 'end': ln}
        continue
    if cur is None:
        continue
    m = re.match(r'_(\w+)((?:\[\d+\])*) = (.*?);', l)
    if m:
        k, v = m.group(1), m.group(3)
        idx = tuple(int(x) for x in re.findall(r'\[(\d+)\]', m.group(2)))
        v = v.replace('MAX_NB_OF_NODES_PER_ELEM', '30').replace('std::numeric_limits<unsigned>::max()', '4294967295').replace('true', '1').replace('false', '0')
        v = re.sub(r'NORM_\w+', lambda m: str(enum[m.group(0)]), v)
        assert (k, idx) not in cells[cur]
        cells[cur][(k, idx)] = eval(v)
        cells[cur]['end'] = ln
    else:
        assert l in ('', '{', '}', 'break;') or l.startswith('//'), l
registered = re.findall(r'make_pair\((NORM_\w+), CellModel', '\n'.join(src[260:290]))
assert sorted(registered) == sorted(cells)
lst = lambda xs: '[' + '; '.join(xs) + ']'
out = ['(** The models of the cells: CellModel.cxx 291-1513, written out by tools/gen_celltable.py from the assignments of the constructor.',
       '    [None] is a value that the constructor leaves unset. *)',
       'From Verif Require Import Base.',
       'Local Open Scope Z_scope.', '',
       '(** CellModel.hxx 122-146: the fields of a model; [cm_sons] gathers _sons_type, _nb_of_sons_con and _sons_con, and [cm_little] the little sons, none when their number is left at its greatest value (302). *)',
       'Record cm := CM { cm_type : Z; cm_dim : Z; cm_nbpts : Z; cm_nbsons : Z; cm_dyn : bool; cm_quad : bool; cm_ext : Z; cm_revext : Z; cm_lin : Z; cm_quadt : Z; cm_quadt2 : Z;',
       '  cm_sons : list (Z * list Z); cm_little : option (list (list Z)); cm_extrude : list Z }.', '',
       '(** Bases/NormalizedGeometricTypes 25-56. *)']
for k, v in enum.items():
    if k != 'NORM_MAXTYPE':
        out.append('Definition %s : Z := %d.' % (k, v))
out.append('')
names = []
for c in registered:
    d = cells[c]
    g = lambda k, df=None: d.get((k, ()), df)
    ns = g('nb_of_sons')
    sons = []
    if ns < 100:
        for i in range(ns):
            n = d[('nb_of_sons_con', (i,))]
            sons.append('(%d, %s)' % (d[('sons_type', (i,))], lst([str(d[('sons_con', (i, j))]) for j in range(n)])))
    nl = g('nb_of_little_sons')
    if nl is None:
        little = 'None'
    else:
        little = 'Some ' + lst([lst([str(d[('little_sons_con', (i, j))]) for j in range(3) if ('little_sons_con', (i, j)) in d]) for i in range(nl)])
        assert not [k for k in d if k[0] == 'little_sons_con' and k[1][0] >= nl]
    ne = len([k for k in d if k[0] == 'extrude_con'])
    ext = lst([str(d[('extrude_con', (i,))]) for i in range(ne)])
    b = lambda x: 'true' if x else 'false'
    out.append('(** CellModel.cxx %d-%d *)' % (d['start'], d['end'] + 2))
    out.append('Definition cm_%s : cm := CM %d %d %d %d %s %s %d %d %d %d %d' % (c[5:], enum[c], g('dim'), g('nb_of_pts'), ns, b(g('dyn', 0)), b(g('quadratic', 0)),
               g('extruded_type', 40), g('reverse_extruded_type', 40), g('linear_type', 40), g('quadratic_type', 40), g('quadratic_type2', 40)))
    out.append('  %s (%s) %s.' % (lst(sons), little, ext))
    names.append('cm_' + c[5:])
out += ['', '(** CellModel.cxx 261-289: BuildUniqueInstance *)', 'Definition models : list cm := %s.' % lst(names), '',
        '(** CellModel.cxx 200-212: GetCellModel *)',
        'Definition GetCellModel (type : Z) : res cm := match List.find (fun c => cm_type c =? type) models with Some c => Ok c | None => Throw end.']
open('/verif/rocq/theories/CellTable.v', 'w').write('\n'.join(out) + '\n')
