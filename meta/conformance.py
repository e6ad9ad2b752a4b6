"""Translate the expectations of the project's own unit tests into Coq.

Reads /repo/h800/*_test.py as text (ast; nothing is imported or executed) and
writes rocq/theories/TTests.v, where the model is run on the same calls and must
give the same answers.  Usage: python3 meta/conformance.py [repo]
"""
import ast, sys
REPO = (sys.argv[1] if len(sys.argv) > 1 else '/repo') + '/h800/'
OUT = 'rocq/theories/TTests.v'
CONST = {'BIT_SCHEME_LSB_0': 0, 'BIT_SCHEME_LSB_1': 1, 'BIT_SCHEME_MSB_0': 2, 'BIT_SCHEME_MSB_1': 3,
         'BIT_ORDER_MSB_LEFT': 0, 'BIT_ORDER_LSB_RIGHT': 0, 'BIT_ORDER_LSB_LEFT': 1,
         'BIT_ORDER_MSB_RIGHT': 1}
CTOR = {'BitField': [('value', 0), ('width', 8), ('numbering', 0), ('order', 1)],
        'Word': [('data', 0)],
        'InstructionWord': [('command', 0), ('a', 0), ('b', 0), ('c', 0)],
        'Register': [('data', 0), ('name', None), ('width', 16)],
        'RegisterGroup': [('width', 16)], 'Registers': [('width', 16)]}
FIELD = {'command': 'Command', 'a': 'FA', 'b': 'FB', 'c': 'FC'}


def z(n): return str(n) if n >= 0 else '(%d)' % n


class Obj:
    def __init__(self, cls, args):
        self.cls, self.args, self.cmds = cls, args, []
        self.width = args.get('width')


class Item:         # r[i] of a group, or the loop variable of a register loop
    def __init__(self, obj, i): self.obj, self.i = obj, i


class Seen:         # something observed on an object: a command waiting for its answer
    def __init__(self, sink, text): self.sink, self.text = sink, text


class Test:
    """Interprets one straight-line test and collects scripts."""
    def __init__(self, f):
        self.env, self.objs, self.out = {}, [], []
        self.block(f.body)

    def key(self, s):
        if isinstance(s, ast.Slice):
            return 'Slice (Some %s) (Some %s)' % (z(self.ev(s.lower)), z(self.ev(s.upper)))
        return 'Idx %s' % z(self.ev(s))

    def ctor(self, e):
        cls = e.func.id
        a = dict(CTOR[cls])
        for (n, _), x in zip(CTOR[cls], e.args): a[n] = self.ev(x)
        for k in e.keywords: a[k.arg] = self.ev(k.value)
        return Obj(cls, a)

    def target(self, e):
        """the object, the sink for commands and the command prefix"""
        o = self.ev(e)
        if isinstance(o, Item): return o.obj.cmds, ('On %s ' % z(o.i) if o.i is not None else ''), o
        return o.cmds, '', o

    def emit(self, e, cmd):
        sink, pre, _ = self.target(e)
        sink.append(pre + '(%s)' % cmd if pre else cmd)

    def ev(self, e):
        if isinstance(e, ast.Constant): return e.value
        if isinstance(e, ast.UnaryOp): return -self.ev(e.operand)
        if isinstance(e, ast.Name):
            return self.env[e.id]
        if isinstance(e, ast.BinOp):
            a, b = self.ev(e.left), self.ev(e.right)
            return {ast.Add: lambda: a + b, ast.Sub: lambda: a - b, ast.Pow: lambda: a ** b}[type(e.op)]()
        if isinstance(e, ast.Attribute):
            if e.attr in CONST: return CONST[e.attr]
            sink, pre, o = self.target(e.value)
            if e.attr == 'maxval' and not self.observing: return 2 ** o.width - 1
            if e.attr == 'width' and not self.observing: return o.width
            name = {'value': 'Value', 'maxval': 'Maxval', 'width': 'Width'}.get(e.attr) or 'Field ' + FIELD[e.attr]
            return Seen(sink, pre + ('(%s %%s)' if pre else '%s %%s') % name)
        if isinstance(e, ast.Subscript):
            o = self.ev(e.value)
            if isinstance(o, Obj) and o.cls == 'RegisterGroup': return Item(o, self.ev(e.slice))
            sink, pre, _ = self.target(e.value)
            was, self.observing = self.observing, False
            k = self.key(e.slice)
            self.observing = was
            return Seen(sink, pre + 'Get (%s) %%s' % k)
        if isinstance(e, ast.Call):
            f = e.func
            if isinstance(f, ast.Name):
                if f.id in CTOR: return self.ctor(e)
                if f.id == 'len':
                    if getattr(e.args[0], 'id', '') == 'REGISTERS': return 32
                    return Seen(self.ev(e.args[0]).cmds, 'Len %s')
                if f.id == 'randrange': return 12345
                if f.id == 'range':
                    return range(*[self.ev(x) for x in e.args])
            if isinstance(f, ast.Attribute):
                sink, pre, o = self.target(f.value)
                a = [self.ev(x) for x in e.args]
                if f.attr in ('set', 'clear') and (o.cls != 'Registers'):
                    sink.append('%s %s' % ({'set': 'BSet', 'clear': 'BClear'}[f.attr],
                                           '(Some %s)' % z(a[0]) if a else 'None'))
                    return None
                if f.attr == 'clear': sink.append('ClearAll_'); return None
                return Seen(sink, {'isBitSet': 'IsBitSet', 'isBitClr': 'IsBitClr', 'isRange': 'IsRange',
                                   'isRangeSet': 'IsRangeSet', 'isRangeClr': 'IsRangeClr'}[f.attr]
                            + ''.join(' ' + z(x) for x in a) + ' %s')
        raise SystemExit('expression: ' + ast.dump(e))

    observing = False

    def finish(self, o): self.out.append(o)

    def block(self, b):
        for s in b: self.stmt(s)

    def stmt(self, s):
        if isinstance(s, ast.Expr) and isinstance(s.value, ast.Call):
            f = s.value.func
            n = getattr(f, 'id', '')
            if n == 'print': return
            if n == 'my_assert':
                self.observing = True
                v = self.ev(s.value.args[0])
                self.observing = False
                g = self.ev(s.value.args[1])
                g = str(g).lower() if isinstance(g, bool) else z(g)
                v.sink.append(v.text % g)
                return
            self.ev(s.value); return
        if isinstance(s, ast.Assign):
            t, = s.targets
            v = self.ev(s.value)
            if isinstance(t, ast.Name):
                self.env[t.id] = v
                if isinstance(v, Obj): self.out.append(v)
                return
            if isinstance(t, ast.Subscript):
                self.emit(t.value, 'Put (%s) %s' % (self.key(t.slice), z(v))); return
            if isinstance(t, ast.Attribute):
                c = 'SetVal' if t.attr == 'value' else 'SetField ' + FIELD[t.attr]
                self.emit(t.value, '%s %s' % (c, z(v))); return
        if isinstance(s, ast.AugAssign):
            self.env[s.target.id] += self.ev(s.value); return
        if isinstance(s, ast.For):
            it = self.ev(s.iter)
            if isinstance(it, range):
                for i in it:
                    self.env[s.target.id] = i
                    self.block(s.body)
                return
            # for group in registers: for register in group: body
            inner, = s.body
            tmp = Obj('Register', {'width': it.width})
            self.env[inner.target.id] = tmp
            self.block(inner.body)
            it.cmds.append('Each [%s]' % '; '.join(tmp.cmds))
            return
        if isinstance(s, ast.Try):
            # must raise ValueError; what comes after the raising call in the body never runs
            body = [x for x in s.body if not isinstance(x, ast.Assert)
                    and not (isinstance(x, ast.Expr) and getattr(x.value.func, 'id', '') == 'print')]
            one, = body
            if isinstance(one, ast.Assign):
                o = self.ev(one.value); o.cls += '!'; self.out.append(o)
            else:
                o = self.env['r']
                old, o.cmds = o.cmds, []
                self.stmt(one)
                o.cmds = old + ['GTry [%s]' % '; '.join(o.cmds)]
            return
        if isinstance(s, (ast.Assert, ast.Pass)): return
        raise SystemExit('statement: ' + ast.dump(s))


def coq_ctor(o):
    a = o.args
    c = o.cls.rstrip('!')
    if c == 'BitField': return 'bf_new ' + ' '.join(z(a[k]) for k in ('value', 'width', 'numbering', 'order'))
    if c == 'Word': return 'word_new ' + z(a['data'])
    if c == 'InstructionWord': return 'iw_new ' + ' '.join(z(a[k]) for k in ('command', 'a', 'b', 'c'))
    if c == 'Register': return 'register_new %s None %s' % (z(a['data']), z(a['width']))
    if c == 'RegisterGroup': return 'snd (group_new heap0 %s)' % z(a['width'])
    if c == 'Registers': return 'snd (registers_new heap0 %s)' % z(a['width'])


def coq_script(o):
    cs = '[%s]' % '; '.join(o.cmds)
    if o.cls.endswith('!'): return 'rejected (%s)' % coq_ctor(o)
    if o.cls == 'RegisterGroup': return 'group_script %s %s' % (z(o.args['width']), cs)
    if o.cls == 'Registers': return 'registers_script %s %s' % (z(o.args['width']), cs)
    r = {'BitField': 'bf_script', 'Word': 'word_script', 'InstructionWord': 'iw_script',
         'Register': 'reg_script'}[o.cls]
    return '%s (%s) %s' % (r, coq_ctor(o), cs)


def straight(fn):
    tree = ast.parse(open(REPO + fn).read())
    out = []
    for f in tree.body:
        if isinstance(f, ast.FunctionDef) and f.name.startswith('test'):
            t = Test(f)
            if not t.out: continue
            out.append((f, ' &&\n   '.join('(%s)' % coq_script(o) for o in t.out)))
    return out


# instructions_test.py: lists of cases [class, data, expected]
def expr(e, loopvars):
    if isinstance(e, ast.Constant): return z(e.value) if isinstance(e.value, int) else 'lit "%s"' % e.value
    if isinstance(e, ast.Name): assert e.id in loopvars, e.id; return e.id
    if isinstance(e, ast.UnaryOp): return '(%d)' % -e.operand.value
    if isinstance(e, ast.BinOp):
        op = {ast.Add: '+', ast.Sub: '-', ast.Pow: '^', ast.Mult: '*'}[type(e.op)]
        return '(%s %s %s)' % (expr(e.left, loopvars), op, expr(e.right, loopvars))
    if isinstance(e, ast.Call):
        return '(%s %s)' % (e.func.id, ' '.join('(%s)' % expr(a, loopvars) for a in e.args))
    raise SystemExit(ast.dump(e))


def case(e, cls, lv):
    c, d, good = e.elts
    assert c.id == 'c'
    if isinstance(d, ast.Constant): data = 'TNone'
    else: data = {'MaskedTestData': 'TMasked', 'UnmaskedTestData': 'TUnmasked', 'SimulatorTestData': 'TSim',
                  'PeripheralTestData': 'TPaddr', 'ConstantTestData': 'TConst'}[d.func.id] + \
        ''.join(' ' + expr(a, lv) for a in d.args)
    g = expr(good, lv)
    if not isinstance(good, ast.Call): g = 'Ok %s' % g
    return '(lit "%s", %s, %s)' % (cls, data, g)


def loops(s, cls, lv):
    if isinstance(s, ast.For):
        b, = s.body
        return 'flat_map (fun %s => %s) (py_range 0 %s)' % (s.target.id, loops(b, cls, lv + [s.target.id]),
                                                           expr(s.iter.args[0], lv))
    return '[%s]' % case(s.value.args[0], cls, lv)


def instr_tests():
    tree = ast.parse(open(REPO + 'instructions_test.py').read())
    out = []
    for f in tree.body:
        if not (isinstance(f, ast.FunctionDef) and f.name.startswith('test')): continue
        if f.name == 'test_machine_instructions': continue
        cls, parts, how = None, [], None
        for s in f.body:
            if isinstance(s, ast.Assign) and s.targets[0].id == 'c': cls = s.value.id
            elif isinstance(s, ast.Assign): parts += [case(e, cls, []) for e in s.value.elts] and \
                ['[%s]' % '; '.join(case(e, cls, []) for e in s.value.elts)]
            elif isinstance(s, ast.For): parts.append(loops(s, cls, []))
            elif s.value.func.id in ('run_tests', 'run_exception_tests'): how = s.value.func.id
            else: raise SystemExit(ast.dump(s))
        out.append((f, '%s (%s)' % (how, ' ++ '.join(parts))))
    return out


# cards
def chars(s): return '[%s]' % '; '.join(str(ord(c)) for c in s)


def card_tests():
    tree = ast.parse(open(REPO + 'punchcard_test.py', encoding='utf-8').read())
    f = [x for x in tree.body if isinstance(x, ast.FunctionDef)][0]
    env = {}
    for s in f.body:
        if isinstance(s, ast.Assign) and s.targets[0].id == 'line': env['line'] = s.value.value
        if isinstance(s, ast.Assign) and s.targets[0].id == 'lines': env['lines'] = s.value.func.value.value.splitlines()
        if isinstance(s, ast.Assert):
            l = s.test.left
            if isinstance(l, ast.Attribute) and l.attr != 'line':
                env[l.attr] = ast.literal_eval(s.test.comparators[0])
    a = [x for x in ast.parse(open(REPO + 'arguscard_test.py', encoding='utf-8').read()).body
         if isinstance(x, ast.FunctionDef)][0]
    for s in a.body:
        if isinstance(s, ast.Assign) and s.targets[0].id == 'lines': env['alines'] = s.value.func.value.value.splitlines()
        if isinstance(s, ast.Assert): env[s.test.left.attr] = s.test.comparators[0].value
    st = lambda s: 'lit "%s"' % s
    o = lambda s: 'None' if s is None else 'Some (%s)' % st(s)
    r = lambda s: 'RNone' if s is None else 'RStr (%s)' % st(s)
    t = '''
(** punchcard_test.py test_simple, the single card *)
Definition pc_line : str := %s.
Example punchcard_test_simple :
  match punchcard_new pc_line DEFAULT_WIDTH DEFAULT_FIELDS DEFAULT_FIELDNAMES None 0 with
  | Err _ => False
  | Ok c =>
      c_line c = pc_line
      /\\ c_layout c = [%s]
      /\\ card_fields c = Ok [%s]
      /\\ card_stripped c = Ok [%s]
      /\\ (do r <- card_record c; Ok (zlen r)) = Ok 10
      /\\ card_record c = Ok [%s]
  end.
Proof. vm_compute. repeat split. Qed.
''' % (st(env['line']), '; '.join('(%d, %d)' % p for p in env['layout']),
       ';\n        '.join(st(x) for x in env['fields']),
       ';\n        '.join(o(x) for x in env['strippedFields']),
       ';\n        '.join('(%s, %s)' % (st(k), r(v)) for k, v in env['record'].items()))
    deck = lambda ls: '[\n  %s\n]' % ';\n  '.join(st(l) if l.isascii() and '"' not in l else chars(l) for l in ls)
    t += '''
(** punchcard_test.py test_simple, the deck: it is accepted *)
Definition pc_lines : list str := %s.
Example punchcard_test_deck :
  match deck_new 1 (fun _ => None) (Some pc_lines) None DEFAULT_WIDTH DEFAULT_FIELDS PunchCls with
  | Ok d => zlen (d_records d) = zlen (filter (fun l => negb (startswith l (lit "#"))) pc_lines)
  | Err _ => False
  end.
Proof. vm_compute. reflexivity. Qed.

(** arguscard_test.py test_deck *)
Definition ac_lines : list str := %s.
Example arguscard_test_deck :
  match argus_deck_new 1 (fun _ => None) (Some ac_lines) None DEFAULT_WIDTH DEFAULT_FIELDS ArgusCls with
  | Ok (d, s, c8) => s = Some (%s) /\\ c8 = RStr (%s)
  | Err _ => False
  end.
Proof. vm_compute. split; reflexivity. Qed.
''' % (deck(env['lines']), deck(env['alines']), st(env['log_section']), st(env['log_section_col8']))
    return t


HEAD = open('meta/conformance_head.txt').read()
out = [HEAD]
n = 0
for fn in ('bitfield_test.py', 'word_test.py', 'registers_test.py'):
    for f, body in straight(fn):
        n += 1
        out.append('(** %s:%d %s *)\nExample %s_%s :\n  (%s) = true.\nProof. vm_compute. reflexivity. Qed.\n'
                   % (fn, f.lineno, f.name, fn[:-8], f.name, body))
for f, body in instr_tests():
    n += 1
    out.append('(** instructions_test.py:%d *)\nExample instructions_%s :\n  %s = true.\nProof. vm_compute. reflexivity. Qed.\n'
               % (f.lineno, f.name, body))
out.append(card_tests())
open(OUT, 'w').write('\n'.join(out))
print(n + 3, 'tests')
