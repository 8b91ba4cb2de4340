"""Translate constructor expressions found in the repository's tests (read as text with
the ast module, never executed) into Coq terms of the model."""
import ast

class Skip(Exception):
    pass

OPS = {'GT','LT','GTE','LTE','EQ','NEQ','IN','NOT_IN','LIKE','NOT_LIKE','IS_NULL','IS_NOT_NULL','NOT'}

def coq_str(s):
    if all(32 <= ord(c) < 127 for c in s):
        return '($"%s")' % s.replace('"', '""')
    return '[' + '; '.join('%d' % ord(c) for c in s) + ']%N'

def bindall(parts, body):
    """parts: list of (var, term: result _)"""
    out = ''
    for v, t in parts:
        out += 'let! %s := %s in ' % (v, t)
    return out + body

class Tr:
    """obj(e): Coq term of type result obj; mval(e): of type result mval."""
    def __init__(self, env=None):
        self.n = 0
        self.env = env or {}
    def fresh(self):
        self.n += 1
        return 'x%d' % self.n
    def call(self, fn, args):
        parts = []
        names = []
        for a in args:
            v = self.fresh(); parts.append((v, a)); names.append(v)
        return '(' + bindall(parts, '%s %s' % (fn, ' '.join(names))) + ')'
    def args(self, e, params):
        d = dict(zip(params, e.args))
        for k in e.keywords:
            d[k.arg] = k.value
        return [d.get(p) for p in params]
    def opt(self, e):
        return '(Ok ONone)' if e is None else self.obj(e)
    def num(self, v):
        if isinstance(v, bool):
            return '(Ok (OBool %s))' % ('true' if v else 'false')
        if isinstance(v, int):
            return '(Ok (OInt (%d)))' % v
        num, den = v.as_integer_ratio()
        e = -(den.bit_length() - 1)
        return '(Ok (OFloat (FFin %s %d%%N (%d))))' % ('true' if num < 0 else 'false', abs(num), e)
    def seq(self, elts, con):
        parts = []; names = []
        for x in elts:
            v = self.fresh(); parts.append((v, self.obj(x))); names.append(v)
        return '(' + bindall(parts, 'Ok (%s [%s])' % (con, '; '.join(names))) + ')'
    def obj(self, e):
        if isinstance(e, ast.Constant):
            v = e.value
            if v is None:
                return '(Ok ONone)'
            if isinstance(v, (bool, int, float)):
                return self.num(v)
            if isinstance(v, str):
                return '(Ok (OStr %s))' % coq_str(v)
            if isinstance(v, bytes):
                return '(Ok (OBytes [%s]%%N))' % '; '.join('%d' % b for b in v)
            raise Skip(repr(v))
        if isinstance(e, ast.UnaryOp) and isinstance(e.op, ast.USub) and isinstance(e.operand, ast.Constant):
            return self.num(-e.operand.value)
        if isinstance(e, ast.List):
            return self.seq(e.elts, 'OList')
        if isinstance(e, ast.Tuple):
            return self.seq(e.elts, 'OTuple')
        if isinstance(e, ast.Name) and e.id in self.env:
            return self.obj(self.env[e.id])
        if isinstance(e, ast.Attribute):
            t = ast.unparse(e)
            if t.startswith('Op.') and t[3:] in OPS:
                return '(Ok (OOp %s))' % t[3:]
            if t.startswith('BooleanOp.'):
                return '(Ok (OBoolOp %s))' % t[10:]
            if t.startswith('Direction.'):
                return '(Ok (ODir %s))' % t[10:]
            if t.startswith('ArithmeticOperator.'):
                return '(Ok (OStr ($"%s")))' % e.value.attr.lower()
        if isinstance(e, ast.Call):
            f = ast.unparse(e.func)
            if f == 'Column':
                n, ent = self.args(e, ['name', 'entity'])
                return self.call('mk_column', [self.opt(n), self.opt(ent)])
            if f == 'AliasedExpression':
                a, b = self.args(e, ['exp', 'alias'])
                return self.call('mk_aliased', [self.opt(a), self.opt(b)])
            if f == 'Function':
                a, b, c = self.args(e, ['function', 'parameters', 'alias'])
                return self.call('mk_function', [self.opt(a), self.opt(b), self.opt(c)])
            if f == 'CurriedFunction':
                a, b, c, d = self.args(e, ['function', 'initializers', 'parameters', 'alias'])
                return self.call('mk_curried', [self.opt(x) for x in (a, b, c, d)])
            if f == 'Identifier':
                return self.call('mk_identifier', [self.opt(self.args(e, ['name'])[0])])
            if f == 'Lambda':
                a, b = self.args(e, ['identifiers', 'transformation'])
                return self.call('mk_lambda', [self.opt(a), self.opt(b)])
            if f == 'Entity':
                a, b, c, d = self.args(e, ['name', 'alias', 'sample', 'data_model'])
                return self.call('mk_entity', [self.opt(x) for x in (a, b, c, d)])
            if f == 'Storage':
                a, b, c = self.args(e, ['name', 'sample', 'data_model'])
                return self.call('mk_storage', [self.opt(x) for x in (a, b, c)])
            if f == 'Relationship':
                a, b, c = self.args(e, ['lhs', 'name', 'rhs'])
                return self.call('mk_relationship', [self.opt(x) for x in (a, b, c)])
            if f == 'Join':
                return self.call('mk_join', [self.opt(self.args(e, ['relationships'])[0])])
            if f == 'Condition':
                a, b, c = self.args(e, ['lhs', 'op', 'rhs'])
                return self.call('mk_condition', [self.opt(x) for x in (a, b, c)])
            if f == 'BooleanCondition':
                a, b = self.args(e, ['op', 'conditions'])
                return self.call('mk_boolean_condition', [self.opt(a), self.opt(b)])
            if f in ('And', 'Or'):
                a, = self.args(e, ['conditions'])
                return self.call('mk_' + f.lower(), [self.opt(a)])
            if f == 'OrderBy':
                a, b = self.args(e, ['exp', 'direction'])
                return self.call('mk_orderby', [self.opt(a), self.opt(b)])
            if f == 'LimitBy':
                a, b = self.args(e, ['columns', 'count'])
                return self.call('mk_limitby', [self.opt(a), self.opt(b)])
            if f in ('Limit', 'Offset', 'Granularity', 'Totals', 'Extrapolate'):
                return self.call('mk_' + f.lower(), [self.opt(e.args[0])])
            if f == 'datetime':
                return self.datetime(e)
            if f == 'date':
                y, m, d = [x.value for x in e.args]
                return '(Ok (ODate (mkDate %d %d %d)))' % (y, m, d)
            if f == 'DataModel':
                return self.datamodel(e)
        raise Skip(ast.unparse(e)[:60])
    def datetime(self, e):
        vals = [0] * 7
        for i, x in enumerate(e.args[:7]):
            vals[i] = x.value
        tz = 'None'
        for k in e.keywords:
            t = ast.unparse(k.value)
            if k.arg == 'tzinfo' and t in ('timezone.utc', 'UTC'):
                tz = '(Some 0)'
            else:
                raise Skip(t)
        if len(e.args) > 7:
            raise Skip('tz')
        y, mo, d, h, mi, s, us = vals
        return '(Ok (ODateTime (mkDT (mkDate %d %d %d) %d %d %d %d %s)))' % (y, mo, d, h, mi, s, us, tz)
    def datamodel(self, e):
        raise Skip('DataModel')
    def mval(self, e):
        if isinstance(e, ast.Name) and e.id in self.env:
            return self.mval(self.env[e.id])
        if isinstance(e, ast.Call):
            f = ast.unparse(e.func)
            if f == 'Metric':
                a, b, c = self.args(e, ['public_name', 'mri', 'id'])
                return '(let! m := %s in Ok (VMetric m))' % self.call('mk_metric', [self.opt(x) for x in (a, b, c)])
            if f == 'Timeseries':
                m, a, p, fi, g = self.args(e, ['metric', 'aggregate', 'aggregate_params', 'filters', 'groupby'])
                mm = '(Ok VNone)' if m is None else self.mval(m)
                return '(let! t := %s in Ok (VTS t))' % self.call('mk_timeseries', [mm] + [self.opt(x) for x in (a, p, fi, g)])
            if f == 'Rollup':
                xs = self.args(e, ['interval', 'totals', 'orderby', 'granularity'])
                return '(let! t := %s in Ok (VRollup t))' % self.call('mk_rollup', [self.opt(x) for x in xs])
            if f == 'MetricsScope':
                xs = self.args(e, ['org_ids', 'project_ids', 'use_case_id'])
                return '(let! t := %s in Ok (VScope t))' % self.call('mk_scope', [self.opt(x) for x in xs])
            if f == 'Formula':
                n, ps, a, fi, g = self.args(e, ['function_name', 'parameters', 'aggregate_params', 'filters', 'groupby'])
                parts = []; names = []
                kind = 'KNone'
                if ps is not None and not (isinstance(ps, ast.Constant) and ps.value is None):
                    if isinstance(ps, ast.List): kind = 'KList'
                    elif isinstance(ps, ast.Tuple): kind = 'KTuple'
                    else: raise Skip(ast.unparse(ps))
                    for x in ps.elts:
                        v = self.fresh(); parts.append((v, self.mval(x))); names.append(v)
                vs = []
                for x in (n, a, fi, g):
                    v = self.fresh(); parts.append((v, self.opt(x))); vs.append(v)
                return '(' + bindall(parts, 'Ok (VFormula %s (Some %s) [%s] %s %s %s)' % (vs[0], kind, '; '.join(names), vs[1], vs[2], vs[3])) + ')'
        v = self.fresh()
        return '(let! %s := %s in Ok (VObj %s))' % (v, self.obj(e), v)

def params_of(path):
    """pytest.param(...) calls of every module-level list: {list name: [Call]}"""
    tree = ast.parse(open(path).read())
    out = {}
    for st in tree.body:
        if isinstance(st, ast.Assign) and isinstance(st.value, ast.List):
            out[st.targets[0].id] = [c for c in st.value.elts if isinstance(c, ast.Call) and ast.unparse(c.func) == 'pytest.param']
    return out, tree

def module_env(tree):
    """simple module-level constants and @pytest.fixture-free assignments by name"""
    env = {}
    for st in tree.body:
        if isinstance(st, ast.Assign) and len(st.targets) == 1 and isinstance(st.targets[0], ast.Name) and isinstance(st.value, (ast.Call, ast.Constant, ast.List)):
            env[st.targets[0].id] = st.value
    return env
