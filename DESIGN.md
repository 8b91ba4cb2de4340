# Formal model of getsentry/snuba-sdk in Rocq (Coq 8.16.1)

This file is written before the proofs and updated as the model grows.
`properties.jsonl` has the English properties; `MANIFEST.json` maps them to theorems.

## 1. Approach

The SDK is a pure, dynamically typed Python library: constructors validate their
arguments, setters copy, visitors print or search, a PEG grammar parses MQL.
The model is a set of total Gallina functions that mirror the Python functions
branch by branch; exceptions are values (`Raise <class>`); Python objects are an
inductive type `obj`; constructors take arbitrary `obj` arguments, so "for every
argument" really ranges over ill-typed arguments too.

* Strings are lists of code points (`list N`), so `\w`, `$`-before-newline, escaping
  and UTF-8 are modelled on real code points. Unicode classification of characters
  >= 128 and `repr(float)` / `float(text)` are *oracles*: fields of a type class
  `PyRT`, universally quantified in every theorem. No axiom describes them.
* Regular expressions are data (`re`), transcribed from the source, run by a
  backtracking matcher with Python's priorities.
* The MQL grammar is data, transcribed rule by rule, run by a PEG interpreter with
  parsimonious' semantics; the visitor works on the resulting tree.
* Sets built by the code are lists; every theorem about a verdict that iterates a
  set is stated for an arbitrary permutation of it.
* Deliberate simplifications are written at the definition they affect and collected
  in section 4.

Properties that the code violates are stated in full and proved false
(`..._refuted`, with the witness), next to the strongest true part.

## 2. Files (rocq/theories)

Model (each definition cites the lines of /repo it models):

| file | content |
|------|---------|
| PyBase.v | strings, result monad, decimal numerals, join/replace/split/strip |
| Regex.v | regex AST and a backtracking matcher with Python's priorities |
| Objects.v | `obj`, Python equality, isinstance tests, induction principle; schema.py |
| DateTime.v | dates, datetimes, UTC conversion, isoformat |
| Utf8.v | bytes.decode() |
| Exprs.v | constructors of expressions.py, column.py, function.py, conditions.py, entity.py, storage.py, orderby.py, relationships.py, aliased_expression.py |
| Translate.v | visitors.py Translation (SnQL and MQL mode) |
| Finder.v | visitors.py ExpressionFinder |
| Optimizer.v | query_optimizers/or_optimizer.py |
| Query.v | query.py, query_visitors.py, query_validation.py |
| Metrics.v | timeseries.py, formula.py, metrics_visitors.py |
| MetricsQuery.v | metrics_query.py, metrics_query_visitors.py, mql_visitor.py, mql_context.py |
| Peg.v, Mql.v | parsimonious PEG semantics, mql/mql.py grammar and visitor |
| Json.v | json.dumps as request.py calls it |
| Request.v | request.py, delete_query.py |
| Strptime.v | datetime.strptime for the formats legacy.py uses |
| Legacy.v | legacy.py |
| Snuba.v | snuba.py (is_aggregate, check_aggregate) |
| History.v | calls on a heap of shared objects (which lists and queries an object refers to) |
| Sharing.v | the same for the metrics API, delete queries and requests: Timeseries, formulas, scopes, lists and dictionaries as objects |
| Nested.v | constructors of expressions on a heap: lists, tuples and expressions as objects |
| Hash.v | hash() of every class, over an arbitrary hash of built-in values |
| PyRepr.v | repr() of strings, numbers, lists, tuples and dictionaries; delete_query.py print, the reprs of entity.py and storage.py |

Specifications, written without the model's helpers: SpecExpr (names, constructors),
SpecText and SpecTime (literals, numbers, dates), SpecBool, SpecOccurs, SpecQuery,
SpecSetters, SpecRefs, SpecHazard, SpecOrder, SpecLogic (three-valued filters), SpecMetrics,
SpecMql, SpecMetricsQuery, SpecRequest, SpecJson (a JSON grammar), SpecLegacy, SpecBody,
SpecSnuba, SpecOps (the spelling of operators), SpecSnql (a SnQL tree grammar and what objects stand for), SpecAlike, SpecParsed (what a parsed query looks like), SpecSent (parsed queries MQL can express again),
SpecGrammar (a declarative MQL grammar: which text is read as which query),
SpecErrors (which exceptions a call may raise), SpecHistory (what an object is made of), SpecSame (when two
requests say the same), SpecArrive (what the reader of a metrics query gets), SpecKept (queries that differ in
their strings only), SpecMSetters (what the setters of a MetricsQuery store), SpecEqual (equality of queries,
equal values that look different), SpecMEqual (the same for metrics queries),
SpecMValid (complete metrics queries),
SpecSwap (queries that differ in string values), SpecFromJson (legacy bodies as a JSON
decoder delivers them), SpecShape (legacy bodies of the expected shape), SpecCompose (MQL texts built from accepted MQL texts), SpecThreads (the answers of calls made by several threads), SpecSpaces (MQL texts that differ in white space), SpecChange (queries made from clauses of other queries, queries over queries, other data models), SpecKeys (keys, None and tuples in legacy
bodies), SpecDated (isoformat texts in legacy bodies), SpecFields (classes and attributes), SpecSharing (what an object is made of, which parts serialization copies, which parts answers contain), SpecValues (the metrics API with values instead of objects), SpecHash (what hash covers, Python's promise about hashes of built-in values, membership in sets), SpecNested (which lists an expression reaches, what a constructor makes), SpecAssign (the object with one attribute or item replaced), SpecInject (legacy bodies that differ in strings at the places of values), SpecReqEqual (equality of requests and dictionaries that differ in the order of their entries), SpecPyLit (Python literals and the values they denote), SpecServer (what a server reads from a request and which rows pass), SpecAsked (the rows a legacy body asks for, in terms of what the server reads), SpecStep (what is matched, the conditions of a clause, what is read from a text), SpecMetricsStep (the context key of a field), SpecDelete (rows of a table, the rows asked for and the rows deleted according to the JSON), SpecStr (fields of a metrics query that can be written and the exceptions for the others).

`*Facts.v`, `*Props.v`, Mql*.v, Snql*.v, OneLine.v, PegTotal.v, ParsedPrint.v hold lemmas. Concrete.v and
ConcreteLegacy.v fix the oracles for examples only. Tests*.v are tests of the repository
transcribed by tools/py2coq.py and evaluated in the model. ApiTac.v is a tactic for
examples. `Properties1.v` to `Properties50.v` hold the property theorems, each followed by
examples that meet its hypotheses and by `Print Assumptions`.

## 3. Plan per property

C01-C10 constructors: model the constructor on arbitrary `obj`; state acceptance as an
iff against a hand-written inductive/first-order description; prove via the
soundness+completeness theorem of the regex matcher and induction on `obj`.
C11 Python equality (dataclass-generated vs hand-written `__eq__`): direct; the part for
`Function` is refuted. C12-C14 reader written in Spec, round trip by induction on
strings/values. C15 calendar model, inverse of day numbering by induction plus a finite
sweep of one 400-year cycle. C16 exact fixed-point printing of binary floats.
C17 reader for parentheses/AND/OR, induction on trees. C18-C21 induction on query nesting.
C22-C24 setter algebra over a step function on histories. C25-C30 soundness and
completeness of the column finder against an inductive "occurs in" relation; permutation
invariance. C31-C32 induction on condition trees. C33 totality by induction.
C34-C36 three-valued semantics with arbitrary interpretation; induction.
C37-C39 acceptance iff; the explicit-stack loop is proved equal to a tree predicate.
C40-C46 PEG: big-step lemmas per rule, induction over filters/formulas.
C47-C50 metrics query state machine (serialize mutates). C51-C54 payload maps.
C55-C59 legacy converter. C60 word-list membership and recursion. C61 a relational JSON
grammar proved unambiguous; induction on values. C62 a relation describing the whole
request, sound and complete. C63 a tree grammar for SnQL: unambiguity by induction on
trees, the printer shown to print a tree of the query, and trees shown to determine
queries up to what SnQL cannot express. C64 a type for the value of each grammar rule,
preserved by every visitor action; induction on the run of the recogniser. C65 joins C64
with C43 and C44. C66 a relation between text and value for each grammar rule, preserved by
every visitor action; induction on the run of the recogniser. C67 case analysis of every
constructor, setter and validation. C68-C69 a heap of lists, queries, metrics queries and
requests with one step per call; a simulation between the heaps of two histories.
C70 joins C51, C61 and C63 (C43, C44 and C50 for metrics): equal JSON values come from the
same data. C71 the printing lemmas of C43 and C44 for all values SpecArrive covers. C72 every query
with other strings is one that SpecArrive covers, and arrives with the same structure;
C73 the metrics of a tree are kept by printing and reading, refuted by strings that
contain MQL. C74 setters of a MetricsQuery: a
relation of stored values, induction over the calls. C75 equal queries: Python equality is a
congruence for printing and for the OR optimizer when equal parts look the same, refuted by
True == 1 and by aliases of curried functions. C76 the same for metrics queries, by
induction over formulas, refuted by True == 1 and by times in different zones. C77 equal
queries are equally valid: the finder, the re-validation and the match checks respect
Python equality, refuted by the alias of a function in a subquery. C78 what
MetricsQuery.validate() accepts, field by field, with the formulas of C39 and the results
of parse_mql (C64). C79 texts of queries that differ in string values, by mutual induction
over the relation between the two queries; refuted for serialize() by the merging of ORs.
C80 requests converted from JSON bodies: the parts of the converted query come from the texts and
values of the body (induction over the relation of C60), so C27, C33, C52 and C61 apply; refuted by
totals without grouping, by datetimes outside the years 1 to 9999 in UTC, and by wrong settings. C81 exceptions of json_to_snql: by induction over the shape
of expressions and the exceptions of the constructors (C67), refuted by malformed bodies. C82 combining MQL texts:
by induction on the fuel of the PEG interpreter, an expression that reads all of a text whose quotes and
parentheses are closed reads it in front of ")" too (Extend); then the readings of C45 and C57. C83 threads: the methods as sequences of attribute
reads and writes (Threads.v), with an invariant of all reachable configurations (each object is as made or as serialize() leaves
it; each call under way answers rightly whichever of the two it reads from here on). C84: refuted by two schedules; for
the other attributes by the invariant that no method stores to them. C85 white space in MQL: the PEG interpreter runs in
lockstep on both texts (SpaceFacts: related positions, equal tokens), and the visitor does not read the texts of the nodes that
hold white space; refuted by unquoted metric identifiers. C86 combining, C87 queries over queries and C88 other data models:
from the characterisations of valid queries (C28) and required columns (C31), which are monotone in what the clauses refer to
and in the models; C87 refuted by aliased expressions and by aliases that are no column names. C89 keys, C90 None and C91 tuples in legacy
bodies: the request is a function of the converted parts of the body (KeyFacts), and related bodies have equal parts; C90
refuted by the keys that hold lists, C91 by groupby, orderby and left-hand sides.
C92: the first match of the strptime parsers on isoformat texts (also offsets with seconds); refuted for offsets with microseconds.
C93: inversion of each constructor.
C94-C96: a heap with Timeseries, formulas, scopes, metrics queries, delete queries, requests, lists and dictionaries as cells (Sharing.v); reading a slot depends only on the cells it reaches (induction on the depth); questions change only the query slot of metrics queries, to a slot that reads as the merged query; C94 by an invariant over the run, C95 by a simulation between the program and the program without its questions, C96 by the entries of the payload. Refutations by computation for every depth from four on.
C97: the heap of Sharing.v against a machine on values in which nothing is shared (SpecValues.v): the questions of the program are removed with C95; then objects refer only to older ones, and reading an object gives its value (induction on the depth), a simulation call by call.
C98: hash() of every class over an arbitrary hash of built-in values and an arbitrary combination of the hashes of a tuple (Hash.v). A counterexample for lists and for aliases of CurriedFunctions; otherwise structural induction: which objects have a hash, equal objects with the same aliases have the same one, equality is transitive between them, and within the class Function the aliases of equal objects agree.
C99, C100: a heap with lists, tuples and expressions as cells (Nested.v), in which a constructor keeps references to its arguments. Cells other than lists never change; by induction on the depth an object without lists is read as before, and so is one that reaches no changed list.
C101: on the heap of Sharing.v, compared with the heap to which the object with the new attribute is added. Reading only depends on what a value reaches, and neither heap differs there from the old one.
C102: each converter is shown to map values that differ in strings to objects that differ in the same strings in the same order, clause by clause; then C79 on the converted queries, which C80 shows to be well-formed.
C103: validity field by field, with C77 for the query; the payload is a list of entries put one by one, related entry by entry, with C75 and C76 for the query text; sorting of permuted keys gives one list, so print() is unaffected by order.
C104: the grammar of literals is unambiguous with any closing text behind, by induction on the derivation; the model of repr() follows it, escape by escape; an alias is cut out between the first quote after the name and the last of the text.
C105: C61 for the JSON, unambiguity of the SnQL grammar (C63) for the text; the tree of the conditions as written is built from the tree read, each IN unfolded to the ORs it replaced, with equal left-hand sides shown to stand for one expression.
C106: C55 for the structure of WHERE and HAVING, C80 for the query being one built with the API, C105 for what the server reads; the truth of the tree read is computed item by item from what the legacy conditions denote.
C107: one match tree is constructed that serves every query with the same match; uniqueness of reading (C63) then fixes the match, and each clause is determined by its own value (C105); merging is a function of one condition, so lists of conditions are compared as sets and AND is a property of the set.
C108: C74 for the fields, the payload computed field by field; the filters as read from C43, C44 and C49, with AND as a property of the set of filters.
C109: the text between the braces is the unoptimized text of the inner query; uniqueness of reading (C63) makes it the tree read there, and C107's match tree relates it to the optimized text of the query alone.
C110: C105 gives the unique JSON member "query" of the body; lists and keys are related by is_json, which is injective on integers and on strings of scalar values. The bound is delete validation.
C111: case analysis on the position of the first field that cannot be written; earlier fields print, so the printer reaches it.
















None of the properties is outside what a model can express.

## 4. Trusted base

**Kernel and axioms.** Coq 8.16.1's kernel (including its `vm_compute` conversion, used for
closed computations in examples, refutations and one sweep over a 400-year calendar
cycle). `Print Assumptions` follows every property theorem; each one answers "Closed under
the global context": no theorem depends on any axiom. The development declares no axiom,
parameter, module type or functor and switches off no check. Loading `Lia`/`ZifyN`
brings the seven constants of `Coq.ssr.ssrunder.Under_rel` (standard library) into the
environment; they are what vcheck lists as library axioms, and no theorem uses them.

**Oracles.** What the model leaves open is a field of a type class and universally
quantified in the theorems: `PyRT` (Unicode word/space/digit/upper-case on code points
>= 128, `repr(float)`, `float(text)`), `PyStr` (`str()` of values the MQL printer
interpolates without a rule of its own), `PyConv` (Unicode decimal digit values, `float()`
and `int()` of arbitrary objects in legacy.py), `PyHash` (hash() of built-in values and of
tuples), `PyRepr` (which code points >= 127 are printable, repr() of other values). A theorem that needs a fact about an oracle
(for example that a float's repr has no newline, C21) has it as a hypothesis.

**Faithfulness of the transcription.** That the Gallina functions do what the Python does is
not proved; it rests on reading, on the transcribed repository tests in Tests*.v, and on
the wrong-program experiments in seeded/LOG.jsonl. Assumed about libraries: the meaning
of Python's `re` on the patterns used, of parsimonious' PEG operators, of `json.dumps`
defaults, of `datetime` arithmetic, `isoformat` and `strptime`.

**Reading seeded/LOG.jsonl.** Each edit was made in a compiled scratch copy and the files that
depend on it rebuilt. Every proof that no longer went through was replaced by Admitted there, and the
rebuild repeated. `lemmas_and_examples_broken` lists those proofs. `theorems_failed` lists the property
theorems that broke or whose Print Assumptions then showed a broken lemma. So a listed theorem is one
whose proof fails for the edited program; its statement need not be false of it (a lemma about a
definition may break although a claim that uses it survives). Later runs rebuilt only the property
files of the claims under test, so theorems of other claims may fail as well and are not listed.

**Modelled.** Every function of snuba_sdk except the following: abstract visitor methods,
the `__repr__`/`__str__` wrappers outside delete_query.py, entity.py and storage.py, error messages, `get_fields`, `__init__.py` (exports only),
the string and list-of-functions constants being copied as data.

**Simplifications** (each is also noted at its definition):

* Objects are immutable values, except in History.v, where lists passed as clauses, metrics
  queries and requests are cells of a heap, and in Sharing.v, where Timeseries, formulas, scopes,
  metrics queries, delete queries, requests, lists and dictionaries are. In Nested.v the lists and
  tuples handed to constructors of expressions are cells. Not represented are changes to the
  copy of a Timeseries that serialize() makes (reached by reading `m.query`). Where the code
  itself mutates (MetricsQuery.serialize, legacy bodies), the model returns the new state.
* Threads.v takes one read or write of an attribute of a MetricsQuery as atomic (as with the
  interpreter lock) and everything between two of them as local to the thread; timeseries, formulas
  and requests are not changed by the methods modelled there.
* Object identity is not represented, so NaN is never equal to itself.
* Sequences are list, tuple, str and bytes; other sequence types (range, user classes) and
  sub-classes of the built-in types are not represented, except that bool is an int.
* Sets are lists; iteration order is arbitrary where it could matter (C30).
* tzinfo objects whose utcoffset() is None are not represented.
* A Query is not a value inside a clause, and circular structures do not exist.
* str() of a MetricsQuery does not validate. For a scope or mappings of another class than the annotated
  one, and for bytes as the query, the exception in the model may differ from the code's (asdict()
  accepts every dataclass). C111 makes no claim about these; serialize() and print() refuse them first.
* Building the text of an error message is taken to succeed and to change nothing. This is false when
  the refused argument is a Query, MetricsQuery or Request, whose str() serializes it: from reading
  column.py:43 and query.py:170-174, `Column(q)` for a Query without a select raises InvalidQueryError
  where the model of a refused argument raises InvalidColumnError. `OOther` therefore stands for objects
  whose str() and repr() succeed without effects, and no theorem speaks of such arguments.
* No recursion limit, no 4300-digit limit on int-str conversion, no memory errors; floats
  have unlimited exponent range.
* The packrat cache of parsimonious is not modelled (it does not change results).

**Violations found.** A property marked "partial" in MANIFEST.json is false of the code in
the corner its note describes; the witness is a `..._refuted` theorem and the strongest
part that holds is proved next to it.
