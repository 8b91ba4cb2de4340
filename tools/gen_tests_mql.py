"""Generate rocq/theories/TestsMql.v from /repo/tests/test_mql.py (read as text)."""
import ast, os
from py2coq import *
T = '/repo/tests/test_mql.py'
lists, tree = params_of(T)
out = ['''(** GENERATED by tools/gen_tests_mql.py from /repo/tests/test_mql.py: the repository's own
    parser tests, run on the model. These are tests of the model, not properties. *)
From Verif Require Import PyBase Objects Exprs Query Metrics Mql MetricsQuery Concrete.
#[local] Existing Instance demoRT.
Open Scope Z_scope.

(** parse_mql(text) == expected *)
Definition parses_to (text : str) (expected : result mval) : bool :=
  match parse_mql text, expected with
  | Ok a, Ok b => mv_eq a b
  | _, _ => false
  end.
''']
n = 0
for name in ['base_tests', 'term_tests', 'arbitrary_function_tests', 'curried_arbitrary_function_tests']:
    for i, c in enumerate(lists[name]):
        s = ast.literal_eval(c.args[0])
        t = Tr().mval(c.args[1])
        tid = [k.value.value for k in c.keywords if k.arg == 'id']
        out.append('(* %s[%d], line %d: %s *)' % (name, i, c.lineno, (tid or [''])[0].replace('*)','')))
        out.append('Example %s_%d : parses_to %s\n  %s = true.\nProof. vm_compute. reflexivity. Qed.\n' % (name, i, coq_str(s), t))
        n += 1
dst = os.path.join(os.path.dirname(__file__), '../rocq/theories/TestsMql.v')
open(dst, 'w').write('\n'.join(out))
print(n, 'tests')
