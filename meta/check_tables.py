"""Compare the tables of the model with the source text (ast only, nothing is run).

Covers OPCODES, the instruction and constant classes, REGISTERS, ALIASES, the
default card layout, TAG_PREFIXES and CHARSET.  Usage: python3 meta/check_tables.py [repo]
"""
import ast, re, sys
REPO = (sys.argv[1] if len(sys.argv) > 1 else '/repo') + '/h800/'
TH = 'rocq/theories/'


def tree(f): return ast.parse(open(REPO + f, encoding='utf-8').read())
def top(t, name):
    for s in t.body:
        if isinstance(s, ast.Assign) and any(getattr(x, 'id', None) == name for x in s.targets): return s.value
def block(f, name):
    s = open(TH + f).read()
    i = s.index('Definition %s ' % name)
    return s[i:s.index(']', i) if name in ('DEFAULT_FIELDNAMES', 'CHARSET') else s.index('].', i)]


bad = 0
def same(what, a, b):
    global bad
    if a != b:
        bad += 1
        print('DIFFERENT', what)
        for x in a:
            if x not in b: print('  source only', x)
        for x in b:
            if x not in a: print('  model only', x)
    else: print('same', what, len(a))


ins = tree('instructions.py')
src = []
ops = top(ins, 'OPCODES')
defaults = ast.literal_eval(top(ins, 'Opcode').args[2])     # namedtuple_defaults
for k, v in zip(ops.keys, ops.values):
    assert not v.keywords
    given = tuple(ast.literal_eval(a) for a in v.args)
    src.append((k.value,) + given + defaults[len(given):])
lit = r'\(?lit "([^"]*)"\)?'
opt = r'\(?(?:Some (\d+)|None)\)?'
mod = [(m[0], m[1], m[2]) + tuple(int(x) if x else None for x in m[3:6]) + (m[6],)
       for m in re.findall(r'\(lit "([^"]*)", mkopcode %s %s %s %s %s %s\)' % (lit, lit, opt, opt, opt, lit),
                           block('MInstructions.v', 'OPCODES'))]
same('OPCODES', src, mod)
src = [(k.value, [ast.literal_eval(a) for a in v.args]) for k, v in zip(ops.keys, ops.values)]
mod = [(m[0], [None if x == 'VNone' else int(x[5:]) if x.startswith('VInt') else x[11:-2] for x in m[1].split('; ')])
       for m in re.findall(r'\(lit "([^"]*)", \[([^]]*)\]\)', block('MTuple.v', 'OPCODE_CALLS'))]
same('OPCODE_CALLS', src, mod)

sig = {'sequence=,mask=,a=,b=,c=': 'SigMaskableOpt', 'sequence,mask=,a=,b=,c=': 'SigMaskable',
       'sequence,a,b,c': 'SigUnmasked', 'paddr': 'SigPeripheral', 'sequence': 'SigSimulator', '': 'SigProceed'}
cls, const = [], []
for s in ins.body:
    if not isinstance(s, ast.ClassDef) or not s.body or not isinstance(s.body[-1], ast.FunctionDef): continue
    f = s.body[-1]
    a = f.args.args[1:]
    nd = len(a) - len(f.args.defaults)
    key = ','.join(x.arg + ('=' if i >= nd else '') for i, x in enumerate(a))
    call = f.body[0].value
    op = [k.value for k in call.keywords if k.arg == 'opcode'] + call.args
    if op and isinstance(op[0], ast.Subscript):
        cls.append((s.name, sig[key], ast.literal_eval(op[0].slice)))
    elif key == 'data':
        mn = [k.value.value for k in call.keywords if k.arg == 'mnemonic'] + \
             [x.value for x in call.args if isinstance(x, ast.Constant)]
        const.append((s.name, mn[0]))
mod = re.findall(r'\(lit "([^"]*)", \((Sig\w+), lit "([^"]*)"\)\)', block('MInstructions.v', 'CLASSES'))
same('instruction classes', cls, mod)
mod = re.findall(r'\(lit "([^"]*)", lit "([^"]*)"\)', block('MInstructions.v', 'CONSTANT_CLASSES'))
same('constant classes', const, mod)

reg = tree('registers.py')
for n in ('REGISTERS', 'ALIASES'):
    same(n, list(ast.literal_eval(top(reg, n)).items()),
         [(a, int(b)) for a, b in re.findall(r'\(lit "([^"]*)", (\d+)\)', block('MRegisters.v', n))])

pc = tree('punchcard.py')
same('DEFAULT_FIELDS', ast.literal_eval(top(pc, '_DEFAULT_FIELDS')),
     [int(x) for x in re.findall(r'\d+', block('MCards.v', 'DEFAULT_FIELDS').split(':=')[1])])
same('DEFAULT_FIELDNAMES', ast.literal_eval(top(pc, '_DEFAULT_FIELDNAMES')),
     re.findall(r'"([^"]*)"', block('MCards.v', 'DEFAULT_FIELDNAMES')))
same('TAG_PREFIXES', list(ast.literal_eval(top(tree('symbol_table.py'), 'TAG_PREFIXES'))),
     re.findall(r'"([^"]*)"', open(TH + 'MSymbols.v').read().split('Definition TAG_PREFIXES')[1].split(']')[0]))
cs = ast.literal_eval(top(tree('charset.py'), 'CHARSET'))
same('CHARSET', [(k, v and ord(v)) for k, v in cs.items()],
     [(int(a or c), int(b) if b else None) for a, b, c in
      re.findall(r'c (\d+) (\d+)|\((\d+), None\)', block('MContext.v', 'CHARSET').replace(' ].', ']'))])
sys.exit(bad)
