#!/usr/bin/env python3
"""Write rocq/theories/TestsLegacy.v: the cases of /repo/tests/test_legacy.py and
test_legacy_api.py (read as text with the ast module, never executed) as Examples."""
import ast, os, sys
sys.path.insert(0, os.path.dirname(os.path.abspath(__file__)))
from py2coq import coq_str

ROOT = os.path.dirname(os.path.dirname(os.path.abspath(__file__)))


def obj(v):
    if v is None:
        return 'ONone'
    if isinstance(v, bool):
        return '(OBool %s)' % ('true' if v else 'false')
    if isinstance(v, int):
        return '(OInt (%d))' % v
    if isinstance(v, float):
        num, den = v.as_integer_ratio()
        return '(OFloat (FFin %s %d%%N (%d)))' % ('true' if num < 0 else 'false', abs(num), -(den.bit_length() - 1))
    if isinstance(v, str):
        return '(OStr %s)' % coq_str(v)
    if isinstance(v, (list, tuple)):
        return '(%s [%s])' % ('OList' if isinstance(v, list) else 'OTuple', '; '.join(map(obj, v)))
    if isinstance(v, dict):
        return '(ODict [%s] [%s])' % ('; '.join(map(coq_str, v)), '; '.join(map(obj, v.values())))
    raise ValueError(v)


out = ['''(** GENERATED by tools/gen_tests_legacy.py from /repo/tests/test_legacy.py and
    test_legacy_api.py: the repository's own tests of json_to_snql, run on the model.
    These are tests of the model, not properties. *)
From Verif Require Import PyBase Objects Exprs Query Metrics Mql MetricsQuery Request Strptime Legacy Concrete ConcreteLegacy.
#[local] Existing Instance demoRT.
#[local] Existing Instance demoCV.
Open Scope Z_scope.

(** json_to_snql(body, entity): dataset, the flags that are set (legacy apart) and the
    printed query *)
Definition converts (body : obj) (entity : str) (lines : list str) (dataset : str) (fs : list (str * obj)) : bool :=
  match snd (json_to_snql body (OStr entity)) with
  | Ok (mkRequest d _ (RQuery q) (RFlags f) _ _) =>
      match print q, flags_to_dict f with
      | Ok s, Ok l => str_eqb s (join [NL] lines) && py_eq d (OStr dataset)
          && py_eq (dict_obj l) (dict_obj (fs ++ [($"legacy", OBool true)]))
      | _, _ => false
      end
  | _ => false
  end.
''']
FLAGS = ['consistent', 'turbo', 'debug', 'dry_run']
for fn, names in (('test_legacy.py', ('tests', 'sentry_tests')), ('test_legacy_api.py', ('discover_tests',))):
    tree = ast.parse(open('/repo/tests/' + fn).read())
    for st in tree.body:
        if not (isinstance(st, ast.Assign) and st.targets[0].id in names):
            continue
        for i, call in enumerate(st.value.elts):
            try:
                args = [ast.literal_eval(a) for a in call.args]
            except ValueError as e:
                out.append('(* %s[%d], line %d: not translated: %s *)' % (st.targets[0].id, i, call.lineno, type(e).__name__))
                continue
            body, clauses = args[0], args[1]
            entity = args[2] if len(args) > 2 else 'sessions'
            ds = [c[len('-- DATASET: '):] for c in clauses if c.startswith('-- DATASET')]
            fl = {}
            for c in clauses:
                if c.startswith('-- ') and not c.startswith('-- DATASET'):
                    k, v = c[3:].split(': ', 1)
                    fl[k.lower()] = v
            fs = '; '.join('(%s, OBool %s)' % (coq_str(k), fl[k].lower()) for k in FLAGS if k in fl)
            lines = '; '.join(coq_str(c) for c in clauses if not c.startswith('--'))
            out.append('(* %s %s[%d], line %d *)\nExample %s_%d : converts\n  %s\n  %s\n  [%s]\n  %s [%s] = true.\nProof. vm_compute. reflexivity. Qed.\n' % (
                fn, st.targets[0].id, i, call.lineno, st.targets[0].id, i, obj(body), coq_str(entity), lines,
                coq_str(ds[0] if ds else entity), fs))
open(os.path.join(ROOT, 'rocq/theories/TestsLegacy.v'), 'w').write('\n'.join(out))
