"""Wrong versions of the generated FLOPS mass components, chosen by position in the model text."""
import re, random
MUTANTS = []
_rng = random.Random(7)
for area, cl in (('MassSys', 'C46'), ('MassLoad', 'C47'), ('MassStruct', 'C48'), ('MassProp', 'C49'), ('MassSum', 'C37')):
    src = open('rocq/theories/%sModel.v' % area).read()
    comps = re.findall(r'^Definition (\w+)_compute ', src, re.M)
    _rng.shuffle(comps)
    kinds = ['partial', 'output', 'sign', 'missing', 'swap', 'dropped']
    for j, c in enumerate(comps[:9]):
        kind = kinds[j % len(kinds)]
        a = src.index('Definition %s_compute ' % c)
        b = src.index('Definition %s_partials ' % c)
        z = src.index('Definition %s (op' % c)
        comp, part = src[a:b], src[b:z]
        rec = src[z:src.index('|}.', z)]
        lets = re.findall(r'  let (d_\w+) := ((?:(?! in  \(\*)[\s\S])*?)\s+in  \(\* (L\d+) \*\)', part)
        outs = re.findall(r'    *let (o_\w+) := ((?:(?! in  \(\*)(?!\bif\b)[\s\S])*?)\s+in  \(\* (L\d+) \*\)', comp)
        outs = outs or re.findall(r'let (\w+) := ((?:(?! in  \(\*)(?!\bif\b)[\s\S])*?)\s+in  \(\* (L\d+) \*\)', comp)[-1:]
        if kind in ('partial', 'sign', 'missing') and not lets:
            kind = 'output'
        if kind == 'partial':
            n, v, l = lets[0]
            old = 'let %s := %s' % (n, v)
            MUTANTS.append(dict(file=area + 'Model.v', definition=c + '_partials', edit='partial %s doubled' % n, breaks='%s_%s' % (cl, c),
                                whole=part, old=part, new=part.replace(old, 'let %s := 2 * (%s)' % (n, v))))
        elif kind == 'sign':
            n, v, l = lets[-1]
            old = 'let %s := %s' % (n, v)
            MUTANTS.append(dict(file=area + 'Model.v', definition=c + '_partials', edit='sign of partial %s' % n, breaks='%s_%s' % (cl, c),
                                old=part, new=part.replace(old, 'let %s := - (%s)' % (n, v))))
        elif kind == 'missing':
            i = part.rindex('  [(')
            body = part[i:]
            items = re.findall(r'\([^()]*?\)', body)
            nb = body.replace(items[0] + ';', '', 1) if len(items) > 1 else '  [].\n\n' + body[body.index('(**'):]
            MUTANTS.append(dict(file=area + 'Model.v', definition=c + '_partials', edit='first partial never assigned', breaks='%s_%s' % (cl, c),
                                old=part, new=part[:i] + nb))
        elif kind == 'swap' and 'c_decl := [(' in rec and rec.count(');\n') >= 1:
            new = re.sub(r'c_decl := \[\(.*?\);\s*\(', 'c_decl := [(', rec, count=1, flags=re.S)
            MUTANTS.append(dict(file=area + 'Model.v', definition=c, edit='first partial not declared', breaks='%s_%s' % (cl, c), old=rec, new=new))
        elif kind == 'dropped':
            new = re.sub(r'c_ins := \[(\w+)', r'c_ins := ["unused:input"; \1', rec, count=1)
            n, v, l = outs[0]
            MUTANTS.append(dict(file=area + 'Model.v', definition=c + '_compute', edit='output %s negated' % n, breaks='%s_%s or C51' % (cl, c),
                                old=comp, new=comp.replace('let %s := %s' % (n, v), 'let %s := - (%s)' % (n, v))))
        else:
            n, v, l = outs[-1]
            MUTANTS.append(dict(file=area + 'Model.v', definition=c + '_compute', edit='output %s tripled, partials unchanged' % n, breaks='%s_%s' % (cl, c),
                                old=comp, new=comp.replace('let %s := %s' % (n, v), 'let %s := 3 * (%s)' % (n, v))))


def G(definition, edit, breaks, old, new, **kw):
    MUTANTS.append(dict(file='MassGroupModel.v', definition=definition, edit=edit, breaks=breaks, old=old, new=new, **kw))


G('StructureMass', 'paint mass left out', 'C37_conservation', '    + e Aircraft_Paint_MASS 0%nat;', '    + 0;')
G('StructureMass', 'one nacelle per engine type', 'C37_conservation', 'e Aircraft_Nacelle_MASS j * num j', 'e Aircraft_Nacelle_MASS j')
G('StructureMass', 'last engine type left out', 'C37_conservation', 'vsum n (fun j', 'vsum (pred n) (fun j')
G('StructureMass', 'nacelle partials one instead of the number of engines', 'C37_StructureMass', 'then 1 * num l else 1', 'then 1 else 1')
G('EmptyMassGroup', 'alternate path uses the standard empty mass', 'C37_conservation_alternate',
  'scalar (if alt then AltEmptyMass op else EmptyMass op)', 'scalar (EmptyMass op)',
  note='Equivalent: the alternate systems mass already holds the one percent, both sums agree.')
G('EmptyMassGroup', 'standard path uses the alternate empty mass', 'C37_conservation',
  'scalar (if alt then AltEmptyMass op else EmptyMass op)', 'scalar (AltEmptyMass op)')
G('EmptyMassGroup', 'margin not computed', 'C37_conservation', 'scalar (EmptyMassMargin op) :: [', '[')
G('MassSummation', 'operating mass before operating items', 'C37_conservation',
  'scalar (OperatingItemsMass op); scalar (OperatingMass op)', 'scalar (OperatingMass op); scalar (OperatingItemsMass op)')
G('MassSummation', 'structure before empennage', 'C37_conservation', '[scalar (EmpennageMass op); StructureMass n num;',
  '[StructureMass n num; scalar (EmpennageMass op);')
G('MassSummation', 'controls mass not reported', 'C37_conservation', '; scalar (FlightControls op)]', ']')
G('FuelCapacityGroup', 'auxiliary capacity left at the user value', 'C36_conservation', 'scalar (AuxFuelCapacity op);', '')
G('FuelCapacityGroup', 'total computed before the auxiliary capacity', 'C36_conservation',
  'scalar (AuxFuelCapacity op);\n   scalar (TotalFuelCapacity op)', 'scalar (TotalFuelCapacity op);\n   scalar (AuxFuelCapacity op)')
