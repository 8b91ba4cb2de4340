"""Generate rocq/theories/TestsSdk.v and TestsMetrics.v from the parametrised tests of /repo
(read as text, never executed)."""
import ast, os, datetime as dt
from py2coq import *
R = '/repo/tests/'
CL = {'select':'CSelect','groupby':'CGroupby','array_join':'CArrayJoin','where':'CWhere','having':'CHaving','orderby':'COrderby',
      'limitby':'CLimitby','limit':'CLimit','offset':'COffset','granularity':'CGranularity','totals':'CTotals'}
QP = ['match','select','groupby','array_join','where','having','orderby','limitby','limit','offset','granularity','totals']

class Q(Tr):
    """also queries: query(e): Coq term of type result query"""
    def obj(self, e):
        if isinstance(e, ast.Call):
            f = ast.unparse(e.func)
            if f == 'col':
                return self.call('mk_column', [self.opt(e.args[0]), '(Ok ONone)'])
            if f == 'func':
                a, b, c = self.args(e, ['function', 'parameters', 'alias'])
                return self.call('mk_function', [self.opt(a), self.opt(b), self.opt(c)])
            if f == 'cur_func':
                a, b, c, d = self.args(e, ['function', 'initializers', 'parameters', 'alias'])
                return self.call('mk_curried', [self.opt(x) for x in (a, b, c, d)])
            if f == 'cond':
                return self.call('mk_condition', [self.opt(x) for x in self.args(e, ['lhs', 'op', 'rhs'])])
            if f == 'bool_cond':
                return self.call('mk_boolean_condition', [self.opt(x) for x in self.args(e, ['op', 'conditions'])])
            if f in ('and_cond', 'or_cond'):
                return self.call('mk_' + f.split('_')[0], [self.opt(e.args[0])])
            if f == 'Metric':
                return '(Ok (OOther 1))'
            if f == 'datetime' and len(e.args) > 7:
                z = ast.unparse(e.args[7])
                off = {'timezone.utc': 0, 'timezone(timedelta(hours=5))': 5 * 3600 * 10**6}[z]
                y, mo, d, h, mi, s, us = [x.value for x in e.args[:7]]
                return '(Ok (ODateTime (mkDT (mkDate %d %d %d) %d %d %d %d (Some %d))))' % (y, mo, d, h, mi, s, us, off)
        if isinstance(e, ast.BinOp) and ast.unparse(e) == 'NOW + timedelta(days=14)':
            a = [x.value for x in self.env['NOW'].args[:7]]
            t = dt.datetime(*a) + dt.timedelta(days=14)
            return '(Ok (ODateTime (mkDT (mkDate %d %d %d) %d %d %d %d (Some 0))))' % (t.year, t.month, t.day, t.hour, t.minute, t.second, t.microsecond)
        if isinstance(e, ast.Attribute) and ast.unparse(e).startswith('ArithmeticOperator.'):
            return '(Ok (OStr ($"%s")))' % e.value.attr.lower()
        if isinstance(e, ast.Dict):
            ks = [ast.literal_eval(k) for k in e.keys]
            parts = []; names = []
            for x in e.values:
                v = self.fresh(); parts.append((v, self.obj(x))); names.append(v)
            return '(' + bindall(parts, 'Ok (ODict [%s] [%s])' % ('; '.join(map(coq_str, ks)), '; '.join(names))) + ')'
        if isinstance(e, ast.Set):
            return '(Ok (OOther 2))'
        return super().obj(e)
    def datamodel(self, e):
        cols, t = self.args(e, ['columns', 'required_time_column'])
        def sc(c):
            n, r = self.args(c, ['name', 'required'])
            return 'mkSC %s %s' % (coq_str(n.value), 'true' if r is not None and r.value else 'false')
        return '(Ok (ODataModel (mkDM [%s] (%s))))' % ('; '.join(sc(c) for c in cols.elts), sc(t))
    def marg(self, e):
        if isinstance(e, ast.Name) and e.id in self.env:
            return self.marg(self.env[e.id])
        try:
            return '(let! q := %s in Ok (MQuery q))' % self.query(e)
        except Skip:
            return '(let! o := %s in Ok (MObj o))' % self.obj(e)
    def query(self, e):
        if isinstance(e, ast.Name) and e.id in self.env:
            return self.query(self.env[e.id])
        if isinstance(e, ast.Call):
            if ast.unparse(e.func) == 'Query':
                a = self.args(e, QP)
                m = self.fresh(); parts = [(m, self.marg(a[0]))]; vs = []
                for x in a[1:]:
                    v = self.fresh(); parts.append((v, self.opt(x))); vs.append(v)
                return '(' + bindall(parts, 'mk_query %s (mkClauses %s)' % (m, ' '.join(vs))) + ')'
            if isinstance(e.func, ast.Attribute) and e.func.attr.startswith('set_'):
                q = self.query(e.func.value); n = e.func.attr[4:]
                if n == 'match':
                    return '(let! q := %s in let! m := %s in set_match q m)' % (q, self.marg(e.args[0]))
                return '(let! q := %s in let! v := %s in set_clause %s q v)' % (q, self.obj(e.args[0]), CL[n])
        raise Skip(ast.unparse(e)[:50])
    def mval(self, e):
        if isinstance(e, ast.Call):
            f = ast.unparse(e.func)
            if f == 'formula':
                e2 = ast.Call(ast.Name('Formula'), [], [])
                for p, v in zip(['function_name', 'parameters', 'filters', 'groupby'], self.args(e, ['operator', 'parameters', 'filters', 'groupby'])):
                    if v is not None:
                        e2.keywords.append(ast.keyword(p, v))
                return self.built(e2)
            if f == 'timeseries':
                return super().mval(ast.Call(ast.Name('Timeseries'), e.args, e.keywords))
            if f == 'Formula':
                return self.built(e)
        if isinstance(e, ast.Name) and e.id in self.env:
            return self.mval(self.env[e.id])
        return super().mval(e)
    def built(self, e):
        # parameters that are no sequence ([None] in the model)
        ps = self.args(e, ['function_name', 'parameters'])[1]
        if ps is not None and not isinstance(ps, (ast.List, ast.Tuple)) and not isnone(ps):
            return '(let! n := %s in Ok (VFormula n None [] ONone ONone ONone))' % self.opt(self.args(e, ['function_name'])[0])
        return Tr.mval(self, e)
    def mquery(self, e):
        if isinstance(e, ast.Name) and e.id in self.env:
            return self.mquery(self.env[e.id])
        if isinstance(e, ast.Call) and ast.unparse(e.func) == 'MetricsQuery':
            parts = []; vs = []
            for x in self.args(e, ['query','start','end','rollup','scope','limit','offset','extrapolate','indexer_mappings']):
                v = self.fresh(); parts.append((v, '(Ok VNone)' if x is None else self.mval(x))); vs.append(v)
            return '(' + bindall(parts, 'Ok (mkMQ %s)' % ' '.join(vs)) + ')'
        raise Skip(ast.unparse(e)[:50])

HEAD = '''(** GENERATED by tools/gen_tests_sdk.py from /repo/tests: the repository's own tests, run on
    the model. These are tests of the model, not properties. *)
From Verif Require Import PyBase DateTime Objects Exprs Translate Optimizer Query Metrics Mql MetricsQuery Json Request Concrete.
#[local] Existing Instance demoRT.
#[local] Instance testST : PyStr := {| str_other := fun _ => [] |}.
Open Scope Z_scope.

Definition same_str (r : result str) (s : str) : bool := match r with Ok x => str_eqb x s | Raise _ => false end.
(** == s, or the given exception (the tests check the class and the text; here the class) *)
Definition fails {A} (r : result A) (f : exn -> bool) : bool := match r with Ok _ => false | Raise e => f e end.
Definition passes {A} (r : result A) : bool := match r with Ok _ => true | Raise _ => false end.
Definition equals (a b : result obj) : bool := match a, b with Ok x, Ok y => py_eq x y | _, _ => false end.
(** dictionaries: equal up to the order of keys (compared as sorted JSON) *)
Definition same_dict (a b : result obj) : bool :=
  match (let! x := a in json_pretty true 0 x), (let! y := b in json_pretty true 0 y) with
  | Ok s, Ok t => str_eqb s t
  | _, _ => false
  end.
'''
out = {}
cnt = {}
skipped = []
def emit(dst, tid, lineno, src, body):
    out.setdefault(dst, [HEAD])
    k = cnt[dst] = cnt.get(dst, 0) + 1
    out[dst].append('(* %s, line %d: %s *)' % (src, lineno, tid.replace('*)', '').replace('(*', '').replace('"', '')))
    out[dst].append('Example t%d_%s : %s = true.\nProof. vm_compute. reflexivity. Qed.\n' % (k, src.split('.')[0], body))
def exn(e):
    n = ast.unparse(e.func)
    return {'InvalidExpressionError': 'is_invalid_expression'}.get(n, '(fun e => match e with %s => true | _ => false end)' % n)
def isnone(e):
    return isinstance(e, ast.Constant) and e.value is None
def cases(file, lst):
    lists, tree = params_of(R + file)
    env = module_env(tree)
    for c in lists[lst]:
        tid = [k.value.value for k in c.keywords if k.arg == 'id']
        yield (tid or [''])[0], c, env
def each(dst, file, lst, f):
    for tid, c, env in cases(file, lst):
        try:
            for body in f(Q(env), *c.args):
                emit(dst, tid, c.lineno, file, body)
        except Skip as x:
            skipped.append((file, c.lineno, str(x)))
def made(q, t, printed, exc, valid=None, al=True):
    """a constructor term: exception, or translation and equality"""
    if not isnone(exc):
        return ['fails %s %s' % (t, exn(exc))]
    r = []
    if printed is not None and not isnone(printed):
        r.append('same_str (let! o := %s in visit false %s o) %s' % (t, 'true' if al else 'false', coq_str(ast.literal_eval(printed))))
    if valid is not None and not isnone(valid):
        r.append('equals %s %s' % (t, q.obj(valid)))
    return r or ['passes %s' % t]
S = 'TestsSdk'
each(S, 'test_aliased_expression.py', 'tests', lambda q, e, a, p, x: made(q, q.call('mk_aliased', [q.obj(e), q.obj(a)]), p, x))
def column(q, n, v, p, x):
    t = q.call('mk_column', [q.obj(n), '(Ok ONone)'])
    r = made(q, t, p, x)
    if isnone(x):
        a, b, c = [('None' if y is None else '(Some %s)' % coq_str(y)) for y in ast.literal_eval(v)]
        r.append('match %s with Ok (OColumn c) => py_eq (OColumn c) (OColumn (mkColumn %s None %s %s)) | _ => false end' % (t, a[6:-1], b, c))
    return r
each(S, 'test_column.py', 'tests', column)
each(S, 'test_column.py', 'entity_tests', lambda q, n, e, p, x: made(q, q.call('mk_column', [q.obj(n), q.obj(e)]), p, x))
for l in ('tests', 'boolean_tests'):
    each(S, 'test_condition.py', l, lambda q, t, v, p, x: made(q, q.obj(t), p, x, v))
for l in ('tests', 'curried_tests'):
    each(S, 'test_function.py', l, lambda q, t, v, p, x: made(q, q.obj(t), p, x, v))
each(S, 'test_lambda.py', 'tests', lambda q, i, t, v, p, x: made(q, q.call('mk_lambda', [q.obj(i), q.obj(t)]), p, x, v, al=False))
each(S, 'test_scalar.py', 'tests', lambda q, s, p: made(q, q.obj(s), p, ast.Constant(None)))
each(S, 'test_storage.py', 'tests', lambda q, n, s, p, x: made(q, q.call('mk_storage', [q.obj(n), q.obj(s), '(Ok ONone)']), p, x))
each(S, 'test_entity.py', 'tests', lambda q, n, a, s, p, x: made(q, q.call('mk_entity', [q.obj(n), q.obj(a), q.obj(s), '(Ok ONone)']), p, x))
for l, k in (('limit_tests', 'limit'), ('offset_tests', 'offset'), ('granularity_tests', 'granularity'), ('totals_tests', 'totals')):
    each(S, 'test_expression.py', l, lambda q, v, x: made(q, q.call('mk_' + k, [q.obj(v)]), None, x))
each(S, 'test_expression.py', 'orderby_tests', lambda q, e, d, x: made(q, q.call('mk_orderby', [q.obj(e), q.obj(d)]), None, x))
each(S, 'test_expression.py', 'limitby_tests', lambda q, e, d, x: made(q, q.call('mk_limitby', [q.obj(e), q.obj(d)]), None, x))
each(S, 'test_relationship_expression.py', 'relationship_tests', lambda q, a, b, c, p, x: made(q, q.call('mk_relationship', [q.obj(a), q.obj(b), q.obj(c)]), p, x))
each(S, 'test_relationship_expression.py', 'join_tests', lambda q, a, p, x: made(q, q.call('mk_join', [q.obj(a)]), p, x))
each(S, 'test_query.py', 'tests', lambda q, t: ['passes (let! q := %s in validate q)' % q.query(t)])
each(S, 'test_query.py', 'invalid_tests', lambda q, t, x: ['passes %s' % q.query(t), 'fails (let! q := %s in validate q) %s' % (q.query(t), exn(x))])
def printed(q, t, cl):
    c = ast.literal_eval(cl); t = q.query(t)
    return ['same_str (let! q := %s in serialize q) %s' % (t, coq_str(' '.join(c))),
            'same_str (let! q := %s in print q) %s' % (t, coq_str('\n'.join(c))),
            'same_str (let! q := %s in print_query ($" ") q) %s' % (t, coq_str(' '.join(c)))]
each(S, 'test_query_visitors.py', 'tests', printed)
each(S, 'test_relationships.py', 'tests', printed)
W = ast.parse('''[Condition(Column("required1"), Op.IN, [1, 2, 3]), Condition(Column("required2"), Op.EQ, 1),
  Condition(Column("time"), Op.GTE, BEFORE), Condition(Column("time"), Op.LT, AFTER)]''', mode='eval').body
def matched(where):
    def f(q, t, x):
        t = q.query(t)
        if where:
            t = '(let! q := %s in let! v := %s in set_clause CWhere q v)' % (t, q.obj(W))
        t = '(let! q := %s in validate_match q)' % t
        return ['passes %s' % t if isnone(x) else 'fails %s %s' % (t, exn(x))]
    return f
import inspect
src = open(R + 'test_query_validation.py').read()
VL = [l for l in params_of(R + 'test_query_validation.py')[0] if params_of(R + 'test_query_validation.py')[0][l]]
for l in VL:
    each(S, 'test_query_validation.py', l, matched('set_where' in src.split('parametrize("query, exception", %s)' % l)[1].split('\n\n\n')[0]))
def required(q, c, e, x):
    qq = ast.Call(ast.Name('Query'), [], [ast.keyword('match', e), ast.keyword('select', ast.parse('[Column("test1"), Column("required1")]', mode='eval').body), ast.keyword('where', c)])
    t = '(let! q := %s in validate_required_columns q)' % q.query(qq)
    return ['passes %s' % t if isnone(x) else 'fails %s %s' % (t, exn(x))]
each(S, 'test_required_column_validation.py', 'entity_match_tests', required)
OTHER = ast.parse('Entity("test_b", "tb", None, SCHEMA)', mode='eval').body
def required_join(q, c, e, x):
    q.env = dict(q.env, other=OTHER, ent=e)
    w = ast.parse('''[Condition(Column("required1", other), Op.IN, [1, 2, 3]), Condition(Column("required2", other), Op.EQ, 1),
      Condition(Column("time", other), Op.GTE, BEFORE), Condition(Column("time", other), Op.LT, AFTER)]''', mode='eval').body
    w.elts += c.elts
    qq = ast.parse('Query(match=Join([Relationship(ent, "has", other)]), select=[Column("test1", ent), Column("required1", other)])', mode='eval').body
    qq.keywords.append(ast.keyword('where', w))
    t = '(let! q := %s in validate_required_columns q)' % q.query(qq)
    return ['passes %s' % t if isnone(x) else 'fails %s %s' % (t, exn(x))]
each(S, 'test_required_column_validation.py', 'join_match_tests', required_join)

M = 'TestsMetrics'
def metric(q, a, b, c, p, x):
    t = q.call('mk_metric', [q.obj(a), q.obj(b), q.obj(c)])
    if not isnone(x): return ['fails %s %s' % (t, exn(x))]
    if isnone(p): return ['passes %s' % t]
    return ['same_str (let! m := %s in print_metric m) %s' % (t, coq_str(p.value))]
each(M, 'test_timeseries.py', 'metric_tests', metric)
def mprinted(q, t, p, x):
    t = q.mval(t)
    if not isnone(x): return ['fails %s %s' % (t, exn(x))]
    return ['same_str (let! v := %s in print_mval v) %s' % (t, coq_str(ast.literal_eval(p)))]
each(M, 'test_timeseries.py', 'timeseries_tests', mprinted)
each(M, 'test_formula.py', 'tests', lambda q, t, x: [('passes %s' if isnone(x) else 'fails %s ' + exn(x)) % ('(let! v := %s in mval_validate v)' % q.mval(t))])
each(M, 'test_formula.py', 'formula_mql_tests', mprinted)
def fprinter(q, t, p):
    t = q.mval(t); p = ast.literal_eval(p)
    return ['same_str (let! v := %s in print_mval v) %s' % (t, coq_str(p)),
      'match %s, parse_mql %s with Ok (VFormula _ _ _ _ f g), Ok (VFormula _ _ _ _ f1 g1) => py_eq f f1 && py_eq g g1 | _, _ => false end' % (t, coq_str(p))]
each(M, 'test_formula_printer.py', 'formula_tests', fprinter)
def roll(q, a, b, c, d, p, x):
    t = q.call('mk_rollup', [q.obj(y) for y in (a, b, c, d)])
    if not isnone(x): return ['fails %s %s' % (t, exn(x))]
    if isnone(p): return ['passes %s' % t]
    return ['same_dict (let! r := %s in Ok (rollup_dict r)) %s' % (t, q.obj(p))]
each(M, 'test_metrics_expressions.py', 'rollup_tests', roll)
def scope(q, a, b, c, p, x):
    t = q.call('mk_scope', [q.obj(y) for y in (a, b, c)])
    if not isnone(x): return ['fails %s %s' % (t, exn(x))]
    if isnone(p): return ['passes %s' % t]
    return ['same_dict (let! r := %s in Ok (scope_dict r)) %s' % (t, q.obj(p))]
each(M, 'test_metrics_expressions.py', 'metric_scope_tests', scope)
def mq(q, t, p):
    t = q.mquery(t); d = dict(zip([k.value for k in p.keys], p.values))
    return ['passes (let! q := %s in mq_validate q)' % t,
      'same_str (let! q := %s in let! r := snd (mq_serialize q) in Ok (fst r)) %s' % (t, coq_str(ast.literal_eval(d['mql']))),
      'same_dict (let! q := %s in let! r := snd (mq_serialize q) in Ok (snd r)) %s' % (t, q.obj(d['mql_context'])),
      'passes (parse_mql %s)' % coq_str(ast.literal_eval(d['mql']))]
each(M, 'test_metrics_mql_query.py', 'metrics_query_timeseries_to_mql_tests', mq)
each(M, 'test_metrics_mql_query.py', 'metrics_query_formula_to_mql_tests', mq)
each(M, 'test_metrics_mql_query.py', 'invalid_metrics_query_to_mql_tests', lambda q, t, x: ['fails (let! q := %s in mq_validate q) %s' % (q.mquery(t), exn(x))])
def req(q, ds, app, ten, qu, fl, par, exp, x):
    try: rq = '(let! q := %s in Ok (RQuery q))' % q.query(qu)
    except Skip: rq = '(let! q := %s in Ok (RMetrics q))' % q.mquery(qu)
    fs = q.args(fl, ['totals', 'consistent', 'turbo', 'debug', 'dry_run', 'legacy'])
    parts = [('a', q.obj(ds)), ('b', q.obj(app)), ('c', rq), ('p', q.obj(par)), ('t', q.obj(ten))]
    vs = []
    for f in fs:
        v = q.fresh(); parts.append((v, q.opt(f))); vs.append(v)
    t = '(' + bindall(parts, 'Ok (mkRequest a b c (RFlags (mkFlags %s)) p t)' % ' '.join(vs)) + ')'
    if not isnone(x): return ['fails (let! r := %s in request_validate r) %s' % (t, exn(x))]
    import json
    return ['passes (let! r := %s in request_validate r)' % t,
      'same_dict (let! r := %s in snd (request_to_dict r)) %s' % (t, q.obj(exp)),
      'same_str (let! r := %s in snd (request_print r)) %s' % (t, coq_str(json.dumps(ast.literal_eval(exp), sort_keys=True, indent=4 * ' ')))]
each(M, 'test_request.py', 'tests', req)

# tests written as plain functions: the expressions below are copied from them
X = lambda t: ast.parse(t.strip(), mode='eval').body
IQ = '(fun e => match e with InvalidQueryError => true | _ => false end)'
def plain(dst, src, line, name, f):
    emit(dst, name, line, src, f(Q({})))
O3 = """[BooleanCondition(BooleanOp.OR, [Condition(Column("transaction"), Op.EQ, "a"), Condition(Column("transaction"), Op.EQ, "b"), Condition(Column("transaction"), Op.EQ, "c")])]"""
O21 = """[BooleanCondition(BooleanOp.OR, [Condition(Column("transaction"), Op.EQ, "a"), BooleanCondition(BooleanOp.OR, [Condition(Column("transaction"), Op.EQ, "b"), Condition(Column("transaction"), Op.EQ, "c")])])]"""
grp = '(let! g := %s in match g with OList l => optimize l | _ => Raise TypeError end)'
plain(S, 'test_or_optimizer.py', 8, 'basic', lambda q: 'match %s, %s with Ok (Some l), Ok e => py_eq (OList l) e | _, _ => false end'
  % (grp % q.obj(X(O3)), q.obj(X('[Condition(Column("transaction"), Op.IN, ["a", "b", "c"])]'))))
plain(S, 'test_or_optimizer.py', 24, 'unsupported', lambda q: 'match %s with Ok None => true | _ => false end' % (grp % q.obj(X(O21))))
plain(S, 'test_or_optimizer.py', 44, 'snql', lambda q: 'same_str (let! q := %s in serialize q) %s' % (
  q.query(X('Query(Entity("events")).set_select([Column("event_id")]).set_where(%s).set_limit(10).set_offset(1).set_granularity(3600)' % O3)),
  coq_str("MATCH (events) SELECT event_id WHERE transaction IN array('a', 'b', 'c') LIMIT 10 OFFSET 1 GRANULARITY 3600")))
plain(S, 'test_invalid_query.py', 16, 'match is a string', lambda q: 'fails %s %s' % (q.query(X('Query(match="events")')), IQ))
plain(S, 'test_invalid_query.py', 22, 'aliased lhs', lambda q: 'fails %s (fun e => match e with InvalidConditionError => true | _ => false end)' % (
  q.query(X('Query(Entity("events")).set_select([AliasedExpression(Column("transaction"), "tn")]).set_where([Condition(AliasedExpression(Column("project_id"), "pi"), Op.IN, (1,))])'))))
for line, cl, vals in [(41, 'match', ['0']), (43, 'select', ['0', '[]', '[0]']), (46, 'groupby', ['0', '[0]']), (47, 'where', ['0', '[0]']),
    (48, 'having', ['0', '[0]']), (49, 'orderby', ['0', '[0]']), (50, 'limitby', ['"a"']), (51, 'limit', ['100000']), (52, 'offset', ['""']), (53, 'granularity', ['-1'])]:
    for v in vals:
        plain(S, 'test_invalid_query.py', line, cl, lambda q: 'fails %s %s' % (q.query(X('Query(Entity("events")).set_%s(%s)' % (cl, v))),
          'is_invalid_expression' if cl in ('limit', 'offset', 'granularity') else IQ))
plain(S, 'test_invalid_query.py', 97, 'inner query', lambda q: 'fails %s %s' % (q.query(X('Query(Query(match=Entity("events"))).set_select([Column("event_id"), Column("title")])')), IQ))
plain(S, 'test_invalid_query.py', 108, 'inner query set', lambda q: 'fails %s %s' % (q.query(X(
  'Query(Query(match=Entity("events"), select=[Column("title"), Column("timestamp")])).set_match(Query(match=Entity("events"))).set_select([Function("uniq", [Column("new_event")], "uniq_event"), Column("title")])')), IQ))
CC = X('{"project_id": [1], "occurrence_id": ["1234"]}')
DQ = '(fun e => match e with InvalidDeleteQueryError => true | _ => false end)'
plain(M, 'test_delete_query.py', 9, 'serialize', lambda q: 'same_dict (let! c := %s in delete_serialize (mkDelete (OStr ($"non-real-storage")) c)) %s' % (
  q.obj(CC), q.obj(X('{"columns": {"project_id": [1], "occurrence_id": ["1234"]}}'))))
plain(M, 'test_delete_query.py', 20, 'serialize_request', lambda q: '''same_str
  (let! c := %s in snd (request_serialize (mkRequest (OStr ($"search_issues")) (OStr ($"myapp"))
     (RDelete (mkDelete (OStr ($"search_issues")) c)) (RFlags (mkFlags ONone ONone ONone ONone ONone ONone)) (OStr ($"<unknown>")) (ODict [] [])))) %s''' % (
  q.obj(CC), coq_str('{"query": {"columns": {"project_id": [1], "occurrence_id": ["1234"]}}, "app_id": "myapp", "tenant_ids": {}, "parent_api": "<unknown>"}')))

for line, v in [(38, '{}'), (50, '{"project_id": []}')]:
    plain(M, 'test_delete_query.py', line, 'empty conditions', lambda q: 'fails (let! c := %s in delete_serialize (mkDelete (OStr ($"search_issues")) c)) %s' % (q.obj(X(v)), DQ))
FL = ['totals', 'consistent', 'turbo', 'debug', 'dry_run', 'legacy']
def flags(q, d):
    return '(' + bindall([('f_' + f, q.opt(X(d[f]) if f in d else None)) for f in FL], 'Ok (mkFlags %s)' % ' '.join('f_' + f for f in FL)) + ')'
for line, d, e in [(8, {'totals': 'True'}, '{"totals": True}'), (9, {'consistent': 'False'}, '{"consistent": False}'), (10, {'turbo': '1'}, None), (11, {'dry_run': '"string"'}, None),
    (31, {'debug': 'None', 'totals': 'False', 'dry_run': 'True'}, '{"totals": False, "dry_run": True}')]:
    if e is None:
        plain(M, 'test_flags.py', line, 'flag', lambda q: 'fails (let! f := %s in flags_validate f) (fun e => match e with InvalidFlagError => true | _ => false end)' % flags(q, d))
    else:
        plain(M, 'test_flags.py', line, 'flag', lambda q: 'passes (let! f := %s in flags_validate f)' % flags(q, d))
        plain(M, 'test_flags.py', line, 'flag', lambda q: 'same_dict (let! f := %s in let! d := flags_to_dict f in Ok (dict_obj d)) %s' % (flags(q, d), q.obj(X(e))))
for d in out:
    open(os.path.join(os.path.dirname(__file__), '../rocq/theories/%s.v' % d), 'w').write('\n'.join(out[d]))
print(cnt)
for s in skipped: print('skipped', s)
