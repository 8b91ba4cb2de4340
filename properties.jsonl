{"id": "C01", "title": "Column construction accepts exactly the column-name language", "statement": "Column(name, entity) succeeds exactly when name is a str consisting of one ASCII letter or underscore, then any number of word characters, '.', ':', '/' or '@', optionally followed by one '[key]' whose key has no square bracket, optionally followed by one final newline; and entity is None or an Entity with a non-empty alias whose data model (if any) lists the column. Every refusal is an InvalidColumnError.", "quantifier": "every Python value passed as name and as entity, strings of any length over all code points", "why_tests_cant": "infinitely many strings; a test suite samples names, and regex corner cases ($ before a final newline, unicode \\w) are exactly what samples miss", "anchors": ["snuba_sdk/column.py:Column.validate", "snuba_sdk/column.py:column_name_re", "snuba_sdk/column.py:Column.validate_data_model"]}
{"id": "C02", "title": "Subscripted columns decompose into subscriptable and key", "statement": "After Column(name) succeeds, subscriptable/key are both None iff name has no '['; otherwise name == subscriptable + '[' + key + ']' and neither part contains a bracket.", "quantifier": "every accepted column name", "why_tests_cant": "unbounded set of names and keys", "anchors": ["snuba_sdk/column.py:Column.validate"]}
{"id": "C03", "title": "A subscripted column of an entity whose schema has the base column is accepted", "statement": "If the data model of an aliased Entity contains the base column 'tags', then Column('tags[k]', entity) is accepted, in agreement with Query.validate on an unaliased entity, which checks only the base column.", "quantifier": "every base column, key and data model", "why_tests_cant": "needs all schema/key pairs; order of effects inside the constructor decides it", "anchors": ["snuba_sdk/column.py:Column.validate", "snuba_sdk/column.py:Column.validate_data_model"]}
{"id": "C04", "title": "An alias can never break out of its back-quotes", "statement": "If Function/CurriedFunction/AliasedExpression accepts an alias then it is a non-empty string of characters from a fixed safe set (plus at most one final newline), in particular without back-quote, quote, space or backslash, so the text ' AS `alias`' printed in SnQL is read back as exactly that alias.", "quantifier": "every alias value and every text following the alias", "why_tests_cant": "injection safety is a statement about all strings", "anchors": ["snuba_sdk/expressions.py:ALIAS_RE", "snuba_sdk/function.py:CurriedFunction.validate", "snuba_sdk/aliased_expression.py:AliasedExpression.validate", "snuba_sdk/visitors.py:Translation._visit_aliased_expression"]}
{"id": "C05", "title": "Function construction accepts exactly the documented shapes", "statement": "CurriedFunction(function, initializers, parameters, alias) succeeds exactly when function is a str in the function-name language, initializers is None or a sequence of literals/Columns, alias is None or a legal alias, and parameters is None or a sequence whose items are Columns, functions, Identifiers, Lambdas or scalars (nested to any depth).", "quantifier": "all argument values, nested to any depth", "why_tests_cant": "unbounded nesting of lists and tuples", "anchors": ["snuba_sdk/function.py:CurriedFunction.validate", "snuba_sdk/function.py:function_name_re", "snuba_sdk/expressions.py:is_scalar"]}
{"id": "C06", "title": "Entity, storage, identifier and relationship names are safe words", "statement": "Entity/Storage/Identifier construction accepts a name exactly when it is a non-empty word of the respective ASCII alphabet, optionally followed by one newline; Lambda accepts exactly sequences of identifiers with a function body; Relationship requires two aliased entities and a non-empty name.", "quantifier": "all argument values", "why_tests_cant": "all strings", "anchors": ["snuba_sdk/entity.py:Entity.validate", "snuba_sdk/storage.py:Storage.validate", "snuba_sdk/function.py:Identifier.validate", "snuba_sdk/function.py:Lambda.validate", "snuba_sdk/relationships.py:Relationship.validate"]}
{"id": "C07", "title": "Numeric clauses stay inside their documented bounds", "statement": "Limit accepts exactly the integers 1..10000, Offset the integers >= 0, Granularity the integers >= 1, LimitBy counts 1..10000, and each prints as the decimal numeral of that integer.", "quantifier": "every Python value, integers of any size", "why_tests_cant": "all integers and all non-integers", "anchors": ["snuba_sdk/expressions.py:_validate_int_literal", "snuba_sdk/orderby.py:LimitBy.validate", "snuba_sdk/visitors.py:Translation._visit_int_literal", "snuba_sdk/visitors.py:Translation._visit_limitby"]}
{"id": "C08", "title": "Condition construction accepts exactly well-typed conditions", "statement": "Condition(lhs, op, rhs) succeeds exactly when lhs is a Column or function, op is an Op, rhs is None for the unary operators, and rhs is a Column, a function or a scalar of any nesting depth; otherwise it raises a subclass of InvalidExpressionError.", "quantifier": "all argument triples", "why_tests_cant": "unbounded values", "anchors": ["snuba_sdk/conditions.py:Condition.validate", "snuba_sdk/expressions.py:is_scalar"]}
{"id": "C09", "title": "BooleanCondition construction accepts exactly lists of two or more conditions", "statement": "And/Or/BooleanCondition succeed exactly when given a BooleanOp and a list or tuple of at least two conditions.", "quantifier": "all argument values and lengths", "why_tests_cant": "unbounded lists", "anchors": ["snuba_sdk/conditions.py:BooleanCondition.validate"]}
{"id": "C10", "title": "Scalar recognition is exact at every nesting depth", "statement": "is_scalar(v) is True exactly for literals and for lists/tuples nested to any depth whose leaves are literals or Expressions, raises InvalidExpressionError exactly for a list/tuple containing something else, and is False for everything else.", "quantifier": "all values, any nesting", "why_tests_cant": "recursive structure of unbounded depth", "anchors": ["snuba_sdk/expressions.py:is_scalar"]}
{"id": "C11", "title": "Function equality ignores the alias", "statement": "Two functions that differ only in alias compare equal (and equal functions hash equal), as the comment on __eq__ promises; function equality is reflexive and symmetric.", "quantifier": "all pairs of functions", "why_tests_cant": "all pairs, including Function vs CurriedFunction", "anchors": ["snuba_sdk/function.py:CurriedFunction.__eq__", "snuba_sdk/function.py:Function"]}
{"id": "C12", "title": "SnQL string literals are self-delimiting and decode to the original text", "statement": "For every string s the printed literal starts and ends with a single quote, contains no raw newline, and a reader that undoes \\\\, \\' and \\n reading the literal followed by any text returns exactly s and leaves exactly that text. Hence no string value can inject SnQL.", "quantifier": "every string and every following text", "why_tests_cant": "injection safety over all strings", "anchors": ["snuba_sdk/visitors.py:Translation._stringify_scalar"]}
{"id": "C13", "title": "Printed SnQL literals, arrays and tuples can be read back uniquely", "statement": "For NULL, booleans, integers, strings and lists/tuples of them nested to any depth, the printed text determines the value: a reader recovers the value (lists as array(...), tuples as tuple(...)) and the following text; so two different values never print alike.", "quantifier": "every nested literal and every following text that cannot extend a number", "why_tests_cant": "unbounded nesting, all strings", "anchors": ["snuba_sdk/visitors.py:Translation._stringify_scalar"]}
{"id": "C14", "title": "Bytes print as the string they encode", "statement": "Printing a bytes value that is the UTF-8 encoding of s gives exactly what printing s gives, and bytes that are not UTF-8 are refused with an error instead of being printed.", "quantifier": "all byte strings", "why_tests_cant": "all byte sequences, including over-long and surrogate encodings", "anchors": ["snuba_sdk/visitors.py:Translation._stringify_scalar"]}
{"id": "C15", "title": "Timezone-aware datetimes are printed as the same instant in UTC", "statement": "Printing a timezone-aware datetime gives toDateTime('...') of a naive datetime denoting the same instant in UTC (or raises OverflowError when that instant is outside years 1..9999); naive datetimes are printed unchanged.", "quantifier": "every datetime, every UTC offset below 24h", "why_tests_cant": "calendar arithmetic over all dates and offsets", "anchors": ["snuba_sdk/visitors.py:Translation._stringify_scalar"]}
{"id": "C16", "title": "A sampled entity/storage prints a positive sample rate", "statement": "Entity/Storage accept only a float sample > 0, and the SAMPLE clause prints a positive decimal number.", "quantifier": "every float", "why_tests_cant": "all floats incl. nan, inf and tiny values", "anchors": ["snuba_sdk/entity.py:Entity.validate", "snuba_sdk/storage.py:Storage.validate", "snuba_sdk/visitors.py:Translation._visit_entity", "snuba_sdk/visitors.py:Translation._visit_storage"]}
{"id": "C17", "title": "The boolean structure of a printed condition can be read back", "statement": "For conditions whose atoms print without structural characters, reading the printed text with a grammar of parentheses, AND and OR gives back the tree of And/Or and atoms that was printed; so nesting and precedence are never lost.", "quantifier": "all condition trees of any depth and width", "why_tests_cant": "unbounded trees", "anchors": ["snuba_sdk/visitors.py:Translation._visit_boolean_condition", "snuba_sdk/query_visitors.py:Printer._visit_where"]}
{"id": "C18", "title": "Columns are qualified by their entity alias exactly in join queries", "statement": "In the SnQL text of a query over a Join every column with an entity is printed as alias.name and every joined entity as (alias: name); in a query over an Entity, Storage or subquery no alias is printed; a subquery is printed with its own rule regardless of the outer query.", "quantifier": "all queries, subquery nesting of any depth", "why_tests_cant": "unbounded nesting; mutable flag on the translator", "anchors": ["snuba_sdk/visitors.py:entity_aliases", "snuba_sdk/query_visitors.py:Printer.visit", "snuba_sdk/query_visitors.py:Printer._visit_match", "snuba_sdk/visitors.py:Translation._visit_column"]}
{"id": "C19", "title": "The SnQL text contains exactly the clauses that are set, in SnQL order", "statement": "The serialized query is the single-space join, in the order MATCH SELECT BY ARRAY JOIN WHERE HAVING ORDER BY LIMIT..BY LIMIT OFFSET GRANULARITY TOTALS, of one clause for each field that is set (and non-empty), and of nothing else.", "quantifier": "every query", "why_tests_cant": "2^11 combinations of clauses times unbounded contents", "anchors": ["snuba_sdk/query_visitors.py:Printer", "snuba_sdk/query.py:Query.serialize"]}
{"id": "C20", "title": "print() and serialize() describe the same query", "statement": "When no top-level OR is rewritten, Query.print() and Query.serialize() differ only in the newline/space between clauses of the outermost query; both fail on exactly the same queries.", "quantifier": "every query", "why_tests_cant": "all queries", "anchors": ["snuba_sdk/query.py:Query.print", "snuba_sdk/query.py:Query.serialize"]}
{"id": "C21", "title": "Serialized SnQL stays on one line", "statement": "If no name in the query ends in a newline, the serialized query has no newline, whatever strings appear as values.", "quantifier": "every query", "why_tests_cant": "all strings in all positions", "anchors": ["snuba_sdk/visitors.py:Translation", "snuba_sdk/query_visitors.py:Printer"]}
{"id": "C22", "title": "Setters change exactly one clause of a new copy", "statement": "Every set_x returns a query in which clause x is the given value and all other clauses are those of the receiver; setting twice keeps the last value; setters of different clauses commute; a refused value raises and yields no query.", "quantifier": "all queries, all values, all sequences of setter calls", "why_tests_cant": "all histories of setter calls", "anchors": ["snuba_sdk/query.py:Query._replace", "snuba_sdk/query.py:Query.set_*"]}
{"id": "C23", "title": "Setters only let clause-typed values in", "statement": "A query built by Query(entity) and any sequence of setter calls has only clause-typed contents (select a non-empty list of selectable expressions, where/having lists of conditions, and so on), so its validate/serialize can only fail for the documented reasons.", "quantifier": "every history of setter calls", "why_tests_cant": "all histories", "anchors": ["snuba_sdk/query.py:Query.set_*", "snuba_sdk/expressions.py:list_type"]}
{"id": "C24", "title": "set_match accepts what the constructor accepts", "statement": "Query(m) succeeds iff q.set_match(m) succeeds, for Entity, Storage, Join and subquery matches (as the signature of set_match says).", "quantifier": "all matches", "why_tests_cant": "all match values", "anchors": ["snuba_sdk/query.py:Query.set_match", "snuba_sdk/query.py:Query.__post_init__"]}
{"id": "C25", "title": "A validated join query qualifies every column with a joined entity", "statement": "If validate() accepts a query over a Join, every column referenced in any clause (in function arguments, curried initializers, lambdas and conditions at any depth, outside arrays/tuples) names an entity whose alias occurs in the Join with that entity name.", "quantifier": "all join queries", "why_tests_cant": "unbounded expressions", "anchors": ["snuba_sdk/query_validation.py:_validate_join", "snuba_sdk/visitors.py:ExpressionFinder", "snuba_sdk/query_visitors.py:ExpressionSearcher"]}
{"id": "C26", "title": "A validated outer query references only what its subquery selects", "statement": "If validate() accepts a query over a subquery, every column referenced in the outer query is the name of a column, or the alias of a function, in the subquery's select; and an aliased expression selected by the subquery can be referenced by its alias.", "quantifier": "all nested queries of any depth", "why_tests_cant": "unbounded nesting", "anchors": ["snuba_sdk/query_validation.py:_validate_subquery"]}
{"id": "C27", "title": "A validated query references only columns of its data model", "statement": "If validate() accepts a query over an Entity/Storage with a data model, every referenced column (or the base of a subscripted one) is in the data model; without a data model every column is accepted.", "quantifier": "all queries and data models", "why_tests_cant": "unbounded", "anchors": ["snuba_sdk/query_validation.py:_validate_entity", "snuba_sdk/query_validation.py:_validate_storage", "snuba_sdk/column.py:Column.validate_data_model"]}
{"id": "C28", "title": "Query.validate accepts exactly the valid queries", "statement": "For a query built with the API, validate() succeeds iff select is non-empty, totals=True implies a non-empty groupby, the inner query is valid, and the match rules for columns hold.", "quantifier": "every query built from API objects", "why_tests_cant": "all queries", "anchors": ["snuba_sdk/query_visitors.py:Validator", "snuba_sdk/query_validation.py:validate_match"]}
{"id": "C29", "title": "Columns inside arrays and tuples are validated too", "statement": "No column printed in the query escapes column validation: in particular a column inside a list/tuple argument or right-hand side must satisfy the match rules.", "quantifier": "all queries", "why_tests_cant": "all nestings", "anchors": ["snuba_sdk/visitors.py:ExpressionFinder._visit_curried_function", "snuba_sdk/visitors.py:ExpressionFinder._visit_condition"]}
{"id": "C30", "title": "Validation does not depend on set iteration order", "statement": "Whether validate(), Join construction and required-column checking succeed is the same for every iteration order of the Python sets they build (hash randomisation).", "quantifier": "every permutation of every set that is iterated", "why_tests_cant": "orders are chosen by the interpreter per process", "anchors": ["snuba_sdk/query_validation.py:_validate_join", "snuba_sdk/relationships.py:Join.validate", "snuba_sdk/query_validation.py:_check_entity_required_columns_in_conditions"]}
{"id": "C31", "title": "Required-column checking is exact", "statement": "validate_required_columns succeeds on a query over an entity with a data model iff every required column has a top-level = or IN condition, and the time column has a top-level >= and a top-level < condition on this entity's alias, where top level means reachable through And only.", "quantifier": "all entities, schemas and condition groups", "why_tests_cant": "unbounded condition trees", "anchors": ["snuba_sdk/query_validation.py:_check_entity_required_columns_in_conditions", "snuba_sdk/query_validation.py:_matching_condition_exists"]}
{"id": "C32", "title": "Flattening And preserves meaning", "statement": "get_first_level_and_conditions returns a list without And whose conjunction is equivalent to the conjunction of the input under every truth assignment of the other conditions, in the original order.", "quantifier": "all condition groups, all truth assignments", "why_tests_cant": "unbounded nesting", "anchors": ["snuba_sdk/conditions.py:get_first_level_and_conditions"]}
{"id": "C33", "title": "A validated API-built query always serializes", "statement": "If every part of a query was accepted by the SDK's constructors and setters and validate() succeeds, then serialize() and print() return text (except for the named hazards: undecodable bytes, UTC overflow, an Extrapolate hidden in an array).", "quantifier": "every query built by the API", "why_tests_cant": "all queries", "anchors": ["snuba_sdk/query.py:Query.serialize", "snuba_sdk/visitors.py:Translation"]}
{"id": "C34", "title": "The OR optimizer preserves the meaning of the filters", "statement": "For every row and every interpretation in which x IN (v1..vn) means x = v1 OR ... OR x = vn (three-valued), the optimized condition group has the same truth value as the original.", "quantifier": "every condition group, every interpretation of columns, functions and operators", "why_tests_cant": "all trees and all data", "anchors": ["snuba_sdk/query_optimizers/or_optimizer.py:OrOptimizer"]}
{"id": "C35", "title": "The OR optimizer is idempotent and changes nothing else", "statement": "optimize returns None iff no top-level OR consists of = conditions on one left-hand side; otherwise the result has the same length and differs only at those positions; optimizing the result again returns None; it never raises on valid conditions.", "quantifier": "every condition group", "why_tests_cant": "all groups", "anchors": ["snuba_sdk/query_optimizers/or_optimizer.py:OrOptimizer"]}
{"id": "C36", "title": "serialize() only rewrites WHERE, to an equivalent filter", "statement": "The text produced by serialize() is the plain printing of a query that has the same clauses except WHERE, and whose WHERE has the same truth value on every row.", "quantifier": "every query", "why_tests_cant": "all queries", "anchors": ["snuba_sdk/query.py:Query._optimize", "snuba_sdk/query.py:Query.serialize"]}
{"id": "C37", "title": "Rollup accepts exactly consistent rollups", "statement": "Rollup(interval, totals, orderby, granularity) succeeds exactly when at least one of interval/totals is given, interval >= 10 and >= granularity, granularity is one of 10, 60, 3600, 86400, orderby is a Direction only without interval; so a serialized rollup always has an allowed granularity.", "quantifier": "all argument values", "why_tests_cant": "all integers and all other values", "anchors": ["snuba_sdk/timeseries.py:Rollup.validate", "snuba_sdk/metrics_query_visitors.py:Validator._visit_rollup"]}
{"id": "C38", "title": "Metric, Timeseries and MetricsScope accept exactly well-typed values", "statement": "Metric needs a public name or an mri (strings) and an int id; Timeseries needs a Metric, a str aggregate, literal aggregate_params, list filters of conditions and list groupby of columns; MetricsScope needs integer lists; set_* keep the other fields.", "quantifier": "all argument values", "why_tests_cant": "all values", "anchors": ["snuba_sdk/timeseries.py:Metric.validate", "snuba_sdk/timeseries.py:Timeseries.validate", "snuba_sdk/timeseries.py:MetricsScope.validate"]}
{"id": "C39", "title": "Formula validation is exact at any depth", "statement": "Formula.validate succeeds iff its parameters are numbers, Timeseries or Formulas, at least one Timeseries occurs in the formula tree, and all group-bys present anywhere in the tree are equal.", "quantifier": "formula trees of any depth and width", "why_tests_cant": "explicit-stack traversal of unbounded trees", "anchors": ["snuba_sdk/formula.py:Formula.validate", "snuba_sdk/formula.py:Formula.__validate_consistency"]}
{"id": "C40", "title": "MQL string literals are self-delimiting", "statement": "For every string s, the MQL literal printed for s is matched by the grammar's quoted-string token as exactly that literal, whatever follows; so no value can inject MQL.", "quantifier": "every string and every following text", "why_tests_cant": "all strings", "anchors": ["snuba_sdk/visitors.py:Translation._stringify_scalar", "snuba_sdk/mql/mql.py:MQL_GRAMMAR"]}
{"id": "C41", "title": "MQL string values survive print and parse", "statement": "Parsing the MQL literal printed for s gives back s.", "quantifier": "every string", "why_tests_cant": "all strings: only some contain backslashes or newlines", "anchors": ["snuba_sdk/mql/mql.py:MQLVisitor.visit_quoted_string", "snuba_sdk/visitors.py:Translation._stringify_scalar"]}
{"id": "C42", "title": "The operator of a metrics filter survives serialization", "statement": "Two filter conditions with different operators never serialize to the same MQL; in particular a comparison (>, <, >=, <=) or null test is either expressed in the MQL text or refused.", "quantifier": "all conditions", "why_tests_cant": "all operators and operands", "anchors": ["snuba_sdk/visitors.py:Translation._visit_condition_mql"]}
{"id": "C43", "title": "A serialized Timeseries parses back to itself", "statement": "For every Timeseries in the MQL-expressible fragment (grammar metric name, identifier aggregate, number/string aggregate params, =/!=/IN/NOT IN/LIKE filters of any boolean nesting, plain group-by names) parse_mql(serialized) returns an equal Timeseries, with a list of several filters returned as their And.", "quantifier": "every Timeseries of the fragment, filters of any depth", "why_tests_cant": "PEG grammar over unbounded inputs", "anchors": ["snuba_sdk/mql/mql.py:parse_mql", "snuba_sdk/mql/mql.py:MQL_GRAMMAR", "snuba_sdk/metrics_visitors.py:TimeseriesMQLPrinter", "snuba_sdk/metrics_visitors.py:FormulaMQLPrinter"]}
{"id": "C44", "title": "A serialized Formula parses back to itself", "statement": "For every Formula tree of the MQL-expressible fragment (binary + - * /, negate, named functions with parameters, nested to any depth) parse_mql(serialized) returns an equal Formula.", "quantifier": "formula trees of any depth", "why_tests_cant": "unbounded trees", "anchors": ["snuba_sdk/metrics_visitors.py:FormulaMQLPrinter", "snuba_sdk/mql/mql.py:MQLVisitor"]}
{"id": "C45", "title": "MQL arithmetic is left associative with the usual precedence", "statement": "Parsing t1 op1 t2 op2 ... tn gives the left-nested formula; * and / bind tighter than + and -; parentheses override.", "quantifier": "all expressions of any length", "why_tests_cant": "unbounded chains", "anchors": ["snuba_sdk/mql/mql.py:MQLVisitor.visit_expression", "snuba_sdk/mql/mql.py:MQLVisitor.visit_term"]}
{"id": "C46", "title": "In MQL filters AND binds tighter than OR", "statement": "Parsing a filter of the form f11 AND .. f1k OR f21 AND .. gives Or of Ands with the factors in order; parentheses override. Factors are tests of a tag against a quoted string, a bare word, a pattern or a list of these, and parenthesised filters.", "quantifier": "all filters of any length", "why_tests_cant": "unbounded", "anchors": ["snuba_sdk/mql/mql.py:MQLVisitor._filter", "snuba_sdk/mql/mql.py:MQL_GRAMMAR"]}
{"id": "C47", "title": "A validated MetricsQuery serializes", "statement": "If MetricsQuery.validate() succeeds then serialize() succeeds.", "quantifier": "every MetricsQuery", "why_tests_cant": "all field combinations, including defaults", "anchors": ["snuba_sdk/metrics_query.py:MetricsQuery.serialize", "snuba_sdk/mql_visitor.py:MQLPrinter._visit_indexer_mappings"]}
{"id": "C48", "title": "Serializing a MetricsQuery twice gives the same payload", "statement": "serialize() followed by serialize() on the same object returns the same mql and the same mql_context.", "quantifier": "every MetricsQuery, any number of calls", "why_tests_cant": "all histories of calls", "anchors": ["snuba_sdk/metrics_query.py:MetricsQuery.serialize", "snuba_sdk/metrics_query.py:MetricsQuery._optimize"]}
{"id": "C49", "title": "serialize() does not change what the MetricsQuery shows", "statement": "print() returns the same text before and after a call of serialize() (the class documents itself as immutable).", "quantifier": "every MetricsQuery and call sequence", "why_tests_cant": "all histories of calls", "anchors": ["snuba_sdk/metrics_query.py:MetricsQuery._optimize"]}
{"id": "C50", "title": "The mql_context carries the query's settings unchanged", "statement": "start, end, rollup, scope, limit, offset, extrapolate and indexer_mappings of the query appear unchanged in mql_context, missing optional ones as None.", "quantifier": "every MetricsQuery", "why_tests_cant": "all values", "anchors": ["snuba_sdk/mql_visitor.py:MQLPrinter", "snuba_sdk/metrics_visitors.py:RollupMQLPrinter", "snuba_sdk/metrics_visitors.py:ScopeMQLPrinter"]}
{"id": "C51", "title": "The request payload carries the request unchanged", "statement": "to_dict() has the query text, dataset, app_id, tenant_ids and parent_api of the request, mql_context exactly for metrics queries, no dataset for delete queries, and exactly the flags that are set; no flag can overwrite another key.", "quantifier": "every request", "why_tests_cant": "all requests", "anchors": ["snuba_sdk/request.py:Request.to_dict"]}
{"id": "C52", "title": "No invalid request is serialized", "statement": "If dataset, app_id, parent_api, tenant_ids, a flag or the query is invalid, to_dict/serialize/print raise; an accepted dataset/app_id is a non-empty string of safe characters (plus at most one final newline).", "quantifier": "every request", "why_tests_cant": "all values", "anchors": ["snuba_sdk/request.py:Request.validate", "snuba_sdk/request.py:FLAG_RE"]}
{"id": "C53", "title": "Flags are exactly the booleans that were set", "statement": "Flags.to_dict() returns exactly the flags that are not None, all booleans, and raises InvalidFlagError iff some flag is neither None nor bool.", "quantifier": "all flag values", "why_tests_cant": "all values", "anchors": ["snuba_sdk/request.py:Flags"]}
{"id": "C54", "title": "A delete query never deletes without a condition", "statement": "DeleteQuery.serialize succeeds iff there is at least one column condition and every condition list is non-empty, and the payload holds exactly these conditions.", "quantifier": "all condition mappings", "why_tests_cant": "all mappings", "anchors": ["snuba_sdk/delete_query.py:DeleteQuery"]}
{"id": "C55", "title": "Legacy conditions keep their conjunction-of-disjunctions meaning", "statement": "json_to_snql turns the legacy 'conditions' list (an AND of conditions and OR-lists) into a WHERE with the same meaning, in order, and 'having' likewise.", "quantifier": "all legacy bodies", "why_tests_cant": "unbounded bodies", "anchors": ["snuba_sdk/legacy.py:json_to_snql", "snuba_sdk/legacy.py:parse_condition"]}
{"id": "C56", "title": "Every recognised legacy condition is converted", "statement": "If is_condition recognises a legacy triple (operators are recognised case-insensitively) then parse_condition converts it.", "quantifier": "all triples", "why_tests_cant": "all spellings of operators", "anchors": ["snuba_sdk/legacy.py:is_condition", "snuba_sdk/legacy.py:_parse_condition_parts"]}
{"id": "C57", "title": "Converting a legacy body twice gives the same request", "statement": "json_to_snql leaves its input body unchanged, so a second conversion of the same body gives an equal request.", "quantifier": "all bodies, all call histories", "why_tests_cant": "all histories", "anchors": ["snuba_sdk/legacy.py:json_to_snql"]}
{"id": "C58", "title": "Legacy datetimes are recognised exactly", "statement": "A legacy string of the form YYYY-MM-DDTHH:MM:SS[.ffffff] or with a numeric UTC offset denoting a real date becomes that datetime, and every other string is passed through unchanged.", "quantifier": "all strings", "why_tests_cant": "all strings", "anchors": ["snuba_sdk/legacy.py:parse_datetime", "snuba_sdk/legacy.py:parse_scalar"]}
{"id": "C59", "title": "Organization, project and time bounds of a legacy body always end up in WHERE", "statement": "If a legacy body has organization, project, from_date/to_date (for an entity with a known time column), the converted query has a top-level condition for each of them.", "quantifier": "all bodies and entities", "why_tests_cant": "all bodies", "anchors": ["snuba_sdk/legacy.py:json_to_snql", "snuba_sdk/legacy.py:parse_extension_condition", "snuba_sdk/entity.py:get_required_time_column"]}
{"id": "C60", "title": "Aggregate detection is exact", "statement": "is_aggregation_function(name) is True for a plain name exactly when it is a base aggregate with one of the listed combinator suffixes; is_aggregate(f) holds exactly when some function in the nested parameters of f is an aggregate.", "quantifier": "all names and nested functions", "why_tests_cant": "unbounded nesting", "anchors": ["snuba_sdk/snuba.py:is_aggregation_function", "snuba_sdk/query_visitors.py:is_aggregate"]}
{"id": "C61", "title": "The request text is JSON that denotes the payload", "statement": "Request.serialize() and print() return a JSON text (RFC 8259) that denotes exactly the to_dict() payload; different payloads have different texts, and every valid request can be sent.", "quantifier": "every request", "why_tests_cant": "all strings, numbers and nested values", "anchors": ["snuba_sdk/request.py:Request.serialize", "snuba_sdk/request.py:Request.print", "snuba_sdk/metrics_query.py:MetricsQuery.print"]}
{"id": "C62", "title": "Every clause of a legacy body is carried over", "statement": "json_to_snql puts the aggregations and selected columns, array join, group by, order by (one entry per item, descending for a leading minus), limit by, limit, offset, granularity, totals, sample, dataset, app and tenant ids and flags of a legacy body unchanged into the request, and nothing else.", "quantifier": "all legacy bodies", "why_tests_cant": "unbounded bodies, all types of values", "anchors": ["snuba_sdk/legacy.py:json_to_snql", "snuba_sdk/legacy.py:parse_exp"]}
{"id": "C63", "title": "The SnQL text determines the query", "statement": "If two queries serialise to the same SnQL text, they select, filter, group, order and limit the same things: they differ at most in what SnQL has no words for (list or tuple, str or UTF-8 bytes, time zones of the same instant, Function or CurriedFunction, True or 1 as a limit) and in ORs of equalities written as IN.", "quantifier": "all pairs of queries built through the API", "why_tests_cant": "pairs of unbounded queries with arbitrary strings and nesting", "anchors": ["snuba_sdk/query.py:Query.serialize", "snuba_sdk/visitors.py:Translation", "snuba_sdk/query_visitors.py:Printer"]}
{"id": "C64", "title": "parse_mql returns a complete, printable query or raises InvalidMQLQueryError", "statement": "For every text parse_mql either returns a Timeseries or a Formula - never a bare number, string or partly assembled value - whose metrics, names, filters and group-by are well formed, whose Timeseries pass validation and which can be printed back to MQL, or it raises InvalidMQLQueryError.", "quantifier": "all texts", "why_tests_cant": "all texts, including malformed ones, of any length and nesting", "anchors": ["snuba_sdk/mql/mql.py:parse_mql", "snuba_sdk/mql/mql.py:MQLVisitor", "snuba_sdk/mql/mql.py:MQL_GRAMMAR"]}
{"id": "C65", "title": "A metrics query given as MQL text is sent with the same meaning", "statement": "If a MetricsQuery holds an MQL text and passes validation, the text that serialize() sends parses to the same query as the text that was given, several filters of one level joined by And.", "quantifier": "all texts that parse, all metrics queries holding them", "why_tests_cant": "all texts, strings, metric names and nestings; parsing and printing must be inverse on all of them", "anchors": ["snuba_sdk/metrics_query.py:MetricsQuery.serialize", "snuba_sdk/mql_visitor.py:MQLPrinter", "snuba_sdk/mql/mql.py:parse_mql", "snuba_sdk/metrics_visitors.py:TimeseriesMQLPrinter", "snuba_sdk/metrics_visitors.py:FormulaMQLPrinter"]}
{"id": "C66", "title": "The query that parse_mql returns is what the text says", "statement": "Every accepted MQL text is, up to white space around it, a sentence of the documented grammar read as exactly the query returned: products bind tighter than sums, filters and group-bys belong to the expression before them, AND binds tighter than OR, quoted strings lose their quotes and escapes, every argument, parameter, filter, key and metric of the text is in the query and nothing else is.", "quantifier": "all texts that parse_mql accepts", "why_tests_cant": "all texts of any length and nesting; the recogniser takes the first alternative that matches, so a wrong order of alternatives changes the meaning of some text", "anchors": ["snuba_sdk/mql/mql.py:parse_mql", "snuba_sdk/mql/mql.py:MQLVisitor", "snuba_sdk/mql/mql.py:MQL_GRAMMAR"]}
{"id": "C67", "title": "Invalid arguments are reported with the SDK's exceptions", "statement": "Whatever values are passed, every constructor and setter returns or raises the exception class documented for it, and validate() of a query, metrics query or request raises one of the SDK's Invalid... exceptions, never a TypeError or AttributeError.", "quantifier": "all argument values of every constructor and setter, all queries and requests", "why_tests_cant": "all argument values, including wrong types at any nesting depth", "anchors": ["snuba_sdk/expressions.py:Expression.__post_init__", "snuba_sdk/timeseries.py:Rollup.validate", "snuba_sdk/formula.py:Formula.validate", "snuba_sdk/query.py:Query.validate", "snuba_sdk/metrics_query.py:MetricsQuery.validate", "snuba_sdk/request.py:Request.validate"]}
{"id": "C68", "title": "SDK calls never change what an existing object sends", "statement": "In any sequence of SDK calls on any number of queries, metrics queries and requests that share lists and queries, what validate(), serialize() and to_dict() of an existing object (and print() and str() of a Query or Request) answer never changes: setters leave their receiver as it was, and no question - not even one that rewrites a shared MetricsQuery - changes a later answer or the outcome of a later call.", "quantifier": "all finite histories of constructor, setter, validate, serialize, print, str and to_dict calls on a shared heap of objects", "why_tests_cant": "all interleavings of calls and all ways of sharing objects", "anchors": ["snuba_sdk/query.py:Query._replace", "snuba_sdk/metrics_query.py:MetricsQuery._optimize", "snuba_sdk/metrics_query.py:MetricsQuery.serialize", "snuba_sdk/request.py:Request.to_dict"]}
{"id": "C69", "title": "A query is independent of the lists it was built from", "statement": "A Query is immutable, so what it sends does not change when the caller later changes a list that was passed to its constructor or setters; the only changes to an object are explicit assignments to its attributes.", "quantifier": "all finite histories of SDK calls, list appends and attribute assignments", "why_tests_cant": "all interleavings of calls and all ways of sharing objects", "anchors": ["snuba_sdk/query.py:Query", "snuba_sdk/query.py:Query._replace", "snuba_sdk/query.py:Query.set_select"]}
{"id": "C70", "title": "The text of a request determines the request", "statement": "Two requests whose serialize() gives the same text are the same request: same dataset, application id, parent api, tenant ids and flags, the same kind of query, and queries that say the same (alike SnQL queries, the same metrics query with the same time range, rollup, scope, limit, offset and extrapolation, the same delete conditions).", "quantifier": "all pairs of requests with any query, flags and tenant ids", "why_tests_cant": "a claim about all pairs of requests with the same text", "anchors": ["snuba_sdk/request.py:Request.serialize", "snuba_sdk/request.py:Request.to_dict", "snuba_sdk/delete_query.py:DeleteQuery.serialize", "snuba_sdk/metrics_query.py:MetricsQuery.serialize"]}
{"id": "C71", "title": "A metrics query is read back with the filters and values it was written with", "statement": "The MQL text of a Timeseries or Formula that validates is accepted by parse_mql, and the result has the same filters (operators, values, nesting), the same operands and the metric that was asked for (its mri, or its public name if it has none); two queries that differ in the value of a filter never become the same query.", "quantifier": "every Timeseries and Formula: filter values of every literal type, columns, lists and tuples, conditions of any nesting, formulas of any depth and number of operands", "why_tests_cant": "the values, the nesting of the conditions and the formula trees are unbounded", "anchors": ["snuba_sdk/metrics_visitors.py:TimeseriesMQLPrinter", "snuba_sdk/metrics_visitors.py:FormulaMQLPrinter", "snuba_sdk/visitors.py:Translation._visit_condition_mql", "snuba_sdk/mql/mql.py:parse_mql"]}
{"id": "C72", "title": "A string value cannot break out of its place in a metrics query", "statement": "Take any Timeseries or Formula that MQL can express and put any other strings into its filters and into the aggregate parameters of its Timeseries: the text that is sent is accepted by parse_mql, and the query read has the same metrics, aggregates, keys, nesting, negations and group-bys, and as many strings in the same places; different strings are read as different strings.", "quantifier": "all queries MQL can express, all strings put into them", "why_tests_cant": "no set of test strings shows that no string closes a quote or a brace", "anchors": ["snuba_sdk/metrics_visitors.py:TimeseriesMQLPrinter", "snuba_sdk/visitors.py:Translation._stringify_literal", "snuba_sdk/visitors.py:Translation._visit_condition_mql", "snuba_sdk/mql/mql.py:parse_mql"]}
{"id": "C73", "title": "Names and parameters cannot smuggle metrics into a query", "statement": "The MQL text of a Timeseries or Formula that validates asks for exactly the metrics of the query, each with its aggregate, whatever strings are given as metric name, aggregate, function name and parameters.", "quantifier": "every Timeseries and Formula, all strings in every field", "why_tests_cant": "all strings in every field, formulas of any depth", "anchors": ["snuba_sdk/timeseries.py:Metric", "snuba_sdk/timeseries.py:Timeseries", "snuba_sdk/formula.py:Formula", "snuba_sdk/metrics_visitors.py:FormulaMQLPrinter", "snuba_sdk/mql/mql.py:parse_mql"]}
{"id": "C74", "title": "Setters of a MetricsQuery change exactly one field of a new copy", "statement": "Each set_* method of MetricsQuery returns a copy in which its own field holds the given value (limits, offsets and extrapolation wrapped in their clause) and every other field is as before, or raises an SDK error for a value of a wrong type or range. After any chain of setters each field holds what was last given for it, so the order of setters of different fields does not matter.", "quantifier": "every MetricsQuery, every argument, every chain of setter calls", "why_tests_cant": "chains of any length with any arguments, including failing ones", "anchors": ["snuba_sdk/metrics_query.py:MetricsQuery.set_query", "snuba_sdk/metrics_query.py:MetricsQuery.set_start", "snuba_sdk/metrics_query.py:MetricsQuery.set_end", "snuba_sdk/metrics_query.py:MetricsQuery.set_rollup", "snuba_sdk/metrics_query.py:MetricsQuery.set_scope", "snuba_sdk/metrics_query.py:MetricsQuery.set_limit", "snuba_sdk/metrics_query.py:MetricsQuery.set_offset", "snuba_sdk/metrics_query.py:MetricsQuery.set_extrapolate", "snuba_sdk/metrics_query.py:MetricsQuery.set_indexer_mappings", "snuba_sdk/metrics_query.py:MetricsQuery._replace"]}
{"id": "C75", "title": "Equal queries send the same text", "statement": "If two queries compare equal with ==, serialize() and print() give the same text for both, or raise the same error for both.", "quantifier": "all pairs of queries built with the API, with expressions of any depth and any nesting of subqueries", "why_tests_cant": "all pairs of equal queries; equality of nested dataclasses is generated code", "anchors": ["snuba_sdk/query.py:Query", "snuba_sdk/query.py:Query.serialize", "snuba_sdk/query.py:Query.print", "snuba_sdk/function.py:CurriedFunction.__eq__", "snuba_sdk/query_visitors.py:Printer", "snuba_sdk/query_optimizers/or_optimizer.py:OrOptimizer"]}
{"id": "C76", "title": "Equal metrics queries send the same text", "statement": "If two metrics queries compare equal with ==, serialize() gives the same MQL text and the same mql_context for both, or raises the same error for both; so does print().", "quantifier": "all pairs of metrics queries, with formulas and filters of any depth", "why_tests_cant": "all pairs of equal metrics queries; equality of nested dataclasses is generated code", "anchors": ["snuba_sdk/metrics_query.py:MetricsQuery", "snuba_sdk/metrics_query.py:MetricsQuery.serialize", "snuba_sdk/metrics_query_visitors.py:MQLPrinter", "snuba_sdk/metrics_visitors.py:TimeseriesMQLPrinter", "snuba_sdk/metrics_visitors.py:FormulaMQLPrinter", "snuba_sdk/timeseries.py:Timeseries", "snuba_sdk/formula.py:Formula"]}
{"id": "C77", "title": "Equal queries are equally valid", "statement": "If two queries compare equal with ==, validate() and the check for required columns have the same outcome for both: both pass, or both raise the same error. The same holds for metrics queries.", "quantifier": "all pairs of queries built with the API, with expressions of any depth and any nesting of subqueries; all pairs of metrics queries with formulas of any depth", "why_tests_cant": "all pairs of equal queries; equality of nested dataclasses is generated code", "anchors": ["snuba_sdk/query.py:Query.validate", "snuba_sdk/query_visitors.py:Validator", "snuba_sdk/query_validation.py:validate_match", "snuba_sdk/query_validation.py:_validate_subquery", "snuba_sdk/query_validation.py:validate_required_columns", "snuba_sdk/function.py:CurriedFunction.__eq__", "snuba_sdk/metrics_query.py:MetricsQuery.validate", "snuba_sdk/formula.py:Formula.validate"]}
{"id": "C78", "title": "MetricsQuery.validate() accepts exactly the complete queries", "statement": "validate() of a metrics query succeeds exactly if the query is a valid Timeseries or Formula, or MQL text that parses to one; start and end are datetimes; there is a consistent rollup whose granularity is set, and a scope; and limit (1 to 10000), offset (at least 0), extrapolate and indexer mappings are absent or of their types. Any other query is refused by validate() and by serialize() with one of four error classes. A complete query given as text serializes exactly if its indexer mappings are set.", "quantifier": "all metrics queries whose formulas have group-by fields of the annotated types, with formulas of any depth, MQL texts of any length, and any values in the other fields", "why_tests_cant": "all combinations of field values, and all MQL texts", "anchors": ["snuba_sdk/metrics_query.py:MetricsQuery.validate", "snuba_sdk/metrics_query_visitors.py:Validator", "snuba_sdk/formula.py:Formula.validate", "snuba_sdk/timeseries.py:Rollup.validate", "snuba_sdk/timeseries.py:Timeseries.validate"]}
{"id": "C79", "title": "A string value cannot break out of its place in a SnQL query", "statement": "Take any query and put other strings in the places of its string values (arguments of functions, right-hand sides, items of lists and tuples, at any depth and in subqueries): print() and serialize() raise the same error as before or give a text that differs from the old one only in those literals, one for one and in the same order. validate() and the check for required columns have the same outcome.", "quantifier": "all queries built with the API, with expressions of any depth and any nesting of subqueries, all strings put into them", "why_tests_cant": "no set of test strings shows that no string closes its quotes; all places at any depth", "anchors": ["snuba_sdk/query.py:Query.serialize", "snuba_sdk/query.py:Query.print", "snuba_sdk/query_visitors.py:Printer", "snuba_sdk/visitors.py:Translation._stringify_literal", "snuba_sdk/query_optimizers/or_optimizer.py:OrOptimizer", "snuba_sdk/query_validation.py:validate_required_columns"]}
{"id": "C80", "title": "A request converted from a legacy body can be sent", "statement": "If json_to_snql() converts a legacy body that came from JSON, the resulting request can be sent: its query is a valid query with clauses of the right types, its settings are valid, and validate(), serialize() and print() succeed.", "quantifier": "all legacy bodies made of JSON values, with conditions and expressions of any nesting, and all entity names", "why_tests_cant": "all JSON bodies of any size and depth", "anchors": ["snuba_sdk/legacy.py:json_to_snql", "snuba_sdk/legacy.py:parse_exp", "snuba_sdk/legacy.py:parse_condition", "snuba_sdk/legacy.py:parse_scalar", "snuba_sdk/query.py:Query.validate", "snuba_sdk/query.py:Query.serialize", "snuba_sdk/request.py:Request.validate", "snuba_sdk/request.py:Request.serialize"]}
{"id": "C81", "title": "Invalid legacy bodies are reported with the SDK's exceptions", "statement": "For a legacy body it cannot convert, json_to_snql() raises one of the exceptions its documentation names: InvalidExpressionError (or a subclass), InvalidQueryError or InvalidRequestError, never another one.", "quantifier": "all legacy bodies, with conditions and expressions of any nesting, and all entity names", "why_tests_cant": "all bodies of any size and depth, including malformed ones", "anchors": ["snuba_sdk/legacy.py:json_to_snql", "snuba_sdk/legacy.py:parse_exp", "snuba_sdk/legacy.py:parse_condition", "snuba_sdk/legacy.py:parse_extension_condition", "snuba_sdk/legacy.py:is_condition"]}
{"id": "C82", "title": "MQL queries can be combined by putting them in parentheses", "statement": "An MQL text that parse_mql() accepts on its own, without white space at its ends and with its double quotes and backticks closed, means the same inside a larger text when it is put in parentheses: (s) is s, (s1) + (s2) is the sum of the two queries (likewise -, *, / with the usual precedence), -(s) its negation, f((s1), (s2)) the call, and (s){filter} by (keys) is s with the filter and the keys added.", "quantifier": "all accepted texts, combined to any depth", "why_tests_cant": "PEG grammar over unbounded inputs: reading a text up to its end says nothing about reading it in front of more text", "anchors": ["snuba_sdk/mql/mql.py:parse_mql", "snuba_sdk/mql/mql.py:MQL_GRAMMAR", "snuba_sdk/mql/mql.py:MQLVisitor"]}
{"id": "C83", "title": "Threads that share a MetricsQuery send what one undisturbed call sends", "statement": "serialize() replaces the query of the MetricsQuery it serializes by an optimized one, reading and writing the attribute step by step. Still, when any number of threads call validate(), serialize(), print(), str(), set_*() and the methods of requests on shared MetricsQuery objects, with their attribute accesses mixed in any order and with calls interrupted by exceptions at any point, every call that returns answers as it does on an undisturbed object: the texts sent do not depend on the schedule, an object only ever has the value it was made with or the one serialize() leaves (the latter once a serialize() returned), copies send the same whichever of the two they were made from, and no call waits for another.", "quantifier": "all programs of any number of threads, all schedules and interruption points", "why_tests_cant": "The number of schedules grows exponentially with the accesses; races show up in none of the single-threaded tests", "anchors": ["snuba_sdk/metrics_query.py:MetricsQuery.serialize", "snuba_sdk/metrics_query.py:MetricsQuery.validate", "snuba_sdk/metrics_query_visitors.py:MQLPrinter", "snuba_sdk/query_optimizers/or_optimizer.py:OrOptimizer", "snuba_sdk/request.py:Request"]}
{"id": "C84", "title": "An assignment to an attribute of a MetricsQuery stays when other threads send the query", "statement": "When a thread assigns to an attribute of a MetricsQuery (query.query = v, query.limit = v) while other threads call its methods, then after all calls have ended the attribute has the assigned value (or, for the query, what serialize() makes of it), unless it was assigned again.", "quantifier": "all programs of any number of threads, all schedules", "why_tests_cant": "A lost update needs an assignment between two particular accesses of another thread", "anchors": ["snuba_sdk/metrics_query.py:MetricsQuery.serialize", "snuba_sdk/query_optimizers/or_optimizer.py:OrOptimizer"]}
{"id": "C85", "title": "Reformatting an MQL text does not change the query", "statement": "If two MQL texts differ only in their white space outside double quotes and backticks - where one has a gap, the other has a gap too, of any length and kind - then parse_mql answers both alike: with equal queries, or with the same exception.", "quantifier": "all MQL texts with closed double quotes and backticks, all ways to change their gaps", "why_tests_cant": "White space can stand at every place of texts of every length", "anchors": ["snuba_sdk/mql/mql.py:MQL_GRAMMAR", "snuba_sdk/mql/mql.py:parse_mql"]}
{"id": "C86", "title": "What valid queries consist of can be combined", "statement": "A query that validates stays valid when filters, expressions, orders and other clause contents are left out, repeated, reordered or replaced with those of other valid queries on the same match, as long as something is selected and totals are asked for only together with groups. Any clause other than SELECT can be dropped (BY only without totals). Further filters never break the check of the required columns.", "quantifier": "all queries on entities, storages, joins and subqueries, any number of source queries, all clauses", "why_tests_cant": "Queries are assembled from pieces in unboundedly many ways; tests validate a few finished queries", "anchors": ["snuba_sdk/query_visitors.py:Validator", "snuba_sdk/query_validation.py:validate_match", "snuba_sdk/query_validation.py:validate_required_columns"]}
{"id": "C87", "title": "What a query shows can be used by a query on top of it", "statement": "If a query validates, then every name it shows - the names of its columns and the aliases of its functions and aliased expressions - can be used as a column of a query that matches on it, and any number of them together.", "quantifier": "all valid queries of every nesting depth, all clauses of the outer query", "why_tests_cant": "Subqueries nest without bound and every alias can be used", "anchors": ["snuba_sdk/query.py:Query.set_match", "snuba_sdk/query_validation.py:_validate_subquery", "snuba_sdk/aliased_expression.py:AliasedExpression"]}
{"id": "C88", "title": "A data model can be extended or dropped without invalidating queries", "statement": "A Column that is accepted for an entity with a data model is accepted with a model that has further columns, and without a model. A query that validates still validates when the models of its entities and storages are extended or dropped. If no model requires more than before, a query that has its required columns still has them.", "quantifier": "all columns, all queries of every nesting depth, all data models and all extensions of them", "why_tests_cant": "A schema change meets all queries of all users, not those of the tests", "anchors": ["snuba_sdk/column.py:Column.validate_data_model", "snuba_sdk/schema.py:DataModel", "snuba_sdk/query_validation.py:validate_required_columns"]}
{"id": "C89", "title": "Only the documented keys of a legacy body count, in any order", "statement": "json_to_snql answers two bodies that have the same values under the 24 keys it knows with equal requests, or with the same exception, whatever other keys they have and in whatever order. Afterwards the two bodies again have the same values under these keys, and other keys keep their values.", "quantifier": "all legacy bodies, all keys, values and orders", "why_tests_cant": "There are unboundedly many further keys and orders", "anchors": ["snuba_sdk/legacy.py:json_to_snql"]}
{"id": "C90", "title": "A key of a legacy body that is None counts as left out", "statement": "json_to_snql answers a body with None under some of its keys like the body without these keys.", "quantifier": "all legacy bodies, all sets of keys", "why_tests_cant": "Every subset of the keys can be None, with every value of the others", "anchors": ["snuba_sdk/legacy.py:json_to_snql"]}
{"id": "C91", "title": "Lists and tuples can be exchanged in a legacy body", "statement": "json_to_snql answers two bodies that differ only in lists and tuples - at any depth of their values - with equal requests, or with the same exception.", "quantifier": "all legacy bodies, all values of every depth, all ways to exchange lists and tuples", "why_tests_cant": "Bodies nest without bound, and JSON decoders, caches and callers disagree on lists and tuples", "anchors": ["snuba_sdk/legacy.py:json_to_snql", "snuba_sdk/legacy.py:parse_scalar", "snuba_sdk/legacy.py:parse_exp"]}
{"id": "C92", "title": "The isoformat() text of a datetime is as good as the datetime in a legacy body", "statement": "Given a legacy body, exchanging a datetime in the right-hand side of a condition (also inside lists, and in having) for the text that isoformat() gives for it does not change the outcome of the conversion, and such a text under from_date or to_date gives a condition with exactly that datetime. (Right-hand sides of tags[...] and release are texts by design.)", "quantifier": "every legacy body, datetime and UTC offset, including offsets with seconds and fractions of seconds", "why_tests_cant": "the text is read by trying three strptime formats after removing colons behind a plus sign: unboundedly many dates, times and offsets, with ambiguous digits", "anchors": ["snuba_sdk/legacy.py:parse_datetime", "snuba_sdk/legacy.py:parse_scalar", "snuba_sdk/legacy.py:json_to_snql"]}
{"id": "C93", "title": "An object has the attributes it was constructed with", "statement": "Whatever arguments a constructor of the SDK accepts, the object has exactly those as its attributes (a Column also has the subscript and key that its name implies): none is dropped, exchanged or converted. So two objects constructed with other arguments, or of different classes, differ, and constructing an object again from its own attributes (as dataclasses.replace does) succeeds and gives the same object.", "quantifier": "all classes of expressions, clauses, conditions and metrics, all argument values of any depth", "why_tests_cant": "all argument values; tests look at a few attributes of a few objects", "anchors": ["snuba_sdk/column.py:Column", "snuba_sdk/function.py:CurriedFunction", "snuba_sdk/function.py:Lambda", "snuba_sdk/conditions.py:Condition", "snuba_sdk/conditions.py:BooleanCondition", "snuba_sdk/entity.py:Entity", "snuba_sdk/storage.py:Storage", "snuba_sdk/relationships.py:Join", "snuba_sdk/orderby.py:LimitBy", "snuba_sdk/expressions.py:Limit", "snuba_sdk/timeseries.py:Timeseries", "snuba_sdk/timeseries.py:Rollup"]}
{"id": "C94", "title": "Metrics queries and requests that share parts do not disturb each other", "statement": "In a program whose MetricsQuery, Timeseries, Formula, MetricsScope, DeleteQuery and Request objects share Timeseries, formulas, scopes, lists and dictionaries, no SDK call (constructor, setter, validate(), print(), str(), serialize(), to_dict()) changes what an existing object sends or whether it is valid, although serialize() rewrites the query it is called on; and an assignment, append or item assignment of the caller changes only objects that have the changed object among their parts.", "quantifier": "all programs of constructor calls, setter calls, questions and changes by the caller, with any sharing; all objects in them; all questions but print() and str() of a MetricsQuery", "why_tests_cant": "which objects share which parts and in which order they are sent is unbounded; tests send one query at a time", "anchors": ["snuba_sdk/metrics_query.py: MetricsQuery.serialize, _optimize, set_*", "snuba_sdk/timeseries.py: Timeseries, MetricsScope", "snuba_sdk/formula.py: Formula", "snuba_sdk/delete_query.py: DeleteQuery", "snuba_sdk/request.py: Request"]}
{"id": "C95", "title": "A change to a part reaches the metrics queries that use it, whether they were sent before or not", "statement": "When the caller changes a Timeseries, a list, a scope or a dictionary, every metrics query and request that has it among its parts sends the changed value afterwards, no matter which questions (validate(), serialize(), to_dict(), ...) were asked before the change; later constructor and setter calls are not affected by earlier questions either.", "quantifier": "all programs of constructor calls, setter calls, questions and changes by the caller, with any sharing", "why_tests_cant": "the effect depends on the order of questions and changes in an unbounded history", "anchors": ["snuba_sdk/metrics_query.py: MetricsQuery.serialize, _optimize", "snuba_sdk/timeseries.py: Timeseries"]}
{"id": "C96", "title": "What to_dict() and serialize() return belongs to the caller", "statement": "Changing the dictionary that Request.to_dict() or DeleteQuery.serialize() returned, or anything in it, does not change what the request, its query or any other object sends.", "quantifier": "all programs of constructor calls, setter calls, questions and changes by the caller, with any sharing; all answers", "why_tests_cant": "tests compare the returned dictionary and never change it; the effect shows in another object, later", "anchors": ["snuba_sdk/request.py: Request.to_dict", "snuba_sdk/delete_query.py: DeleteQuery.serialize"]}
{"id": "C97", "title": "Without assignments, objects that share parts behave as values", "statement": "A program that builds Timeseries, Formulas, scopes, metrics queries, delete queries and requests from shared parts with constructors and set_* calls, and validates and sends them in any order, gets from every call the answer it would get if each constructor and setter had copied its arguments and no call had changed anything; print() and str() of a MetricsQuery are included as long as no question was asked before.", "quantifier": "all programs of constructor calls, setter calls and questions, with any sharing, and every call in them", "why_tests_cant": "programs, their sharing and the order of calls are unbounded; tests build one object and look at it once", "anchors": ["snuba_sdk/metrics_query.py: MetricsQuery", "snuba_sdk/timeseries.py: Timeseries, MetricsScope", "snuba_sdk/formula.py: Formula", "snuba_sdk/delete_query.py: DeleteQuery", "snuba_sdk/request.py: Request"]}
{"id": "C98", "title": "Expressions work in sets and as dictionary keys", "statement": "Every expression the library accepts can be put into a set or used as a dictionary key, expressions that compare equal have equal hashes, so that looking an expression up in a set finds it exactly when an equal one was put in, and equality is transitive.", "quantifier": "all objects, all pairs and triples of them, all collections, and all hash functions that respect the equality of built-in values", "why_tests_cant": "objects nest without bound and the hash of a text changes with every run of Python; a test sees a few objects under one hash seed", "anchors": ["snuba_sdk/function.py: CurriedFunction.__eq__, Function", "snuba_sdk/conditions.py: Condition, BooleanCondition", "snuba_sdk/entity.py: Entity", "snuba_sdk/formula.py: Formula.validate"]}
{"id": "C99", "title": "An expression that has a hash never changes", "statement": "Once an expression has a hash, its value, and with it its text, its hash and what it is equal to, stay the same whatever the program does with lists and other expressions; and a constructor called with arguments that have a hash (tuples instead of lists) makes an expression that has one.", "quantifier": "all programs that build expressions from shared parts and change lists, all objects they make", "why_tests_cant": "programs, sharing and the moment of a change are unbounded", "anchors": ["snuba_sdk/function.py: CurriedFunction, Function, Lambda", "snuba_sdk/conditions.py: Condition, BooleanCondition", "snuba_sdk/orderby.py: OrderBy"]}
{"id": "C100", "title": "An expression is what its constructor was given", "statement": "An expression keeps the value its constructor made of its arguments, whatever happens later to the lists and expressions it was built from; a constructor call that is refused changes nothing.", "quantifier": "all programs that build expressions from shared parts and change lists, all objects they make", "why_tests_cant": "programs, sharing and the moment of a change are unbounded", "anchors": ["snuba_sdk/function.py: CurriedFunction, Function, Lambda", "snuba_sdk/conditions.py: Condition, BooleanCondition", "snuba_sdk/orderby.py: OrderBy"]}
{"id": "C101", "title": "A changed object is as good as one built that way", "statement": "After an attribute of a Timeseries, MetricsScope, MetricsQuery or Request is assigned, an item is appended to a list or a key of a dictionary is set, the object answers every question exactly as one that its constructor makes from the new value and the old other ones; and a metrics query that has the object as an attribute answers as one built with that new object.", "quantifier": "all programs, all changed objects, all attributes, keys and new values, all questions", "why_tests_cant": "programs, objects and values are unbounded", "anchors": ["snuba_sdk/timeseries.py: Timeseries, MetricsScope", "snuba_sdk/metrics_query.py: MetricsQuery", "snuba_sdk/request.py: Request"]}
{"id": "C102", "title": "A string in a legacy body cannot break out of its place", "statement": "When two legacy bodies differ only in strings that are values of conditions (and are no datetime texts, except where datetime texts are kept as texts: tags and release) or texts in quotes given as arguments of functions, json_to_snql() raises the same exception for both or makes requests that are the same but for their queries; the texts of print() differ only in the literals of those strings, one for one and in the same order, whatever characters the strings have. The same holds for serialize() when the left-hand sides of the conditions are the same in both bodies.", "quantifier": "all bodies, all such strings at all such places, all entities", "why_tests_cant": "strings and bodies are unbounded", "anchors": ["snuba_sdk/legacy.py: json_to_snql, parse_exp, parse_scalar", "snuba_sdk/visitors.py: Translation"]}
{"id": "C103", "title": "Equal requests are equally valid and send equal payloads", "statement": "When two requests are equal (==), the one passes validate() exactly when the other does, and then serialize() gives the same text for both, print() too.", "quantifier": "all requests, of all kinds of queries, all flags and tenants", "why_tests_cant": "requests are unbounded", "anchors": ["snuba_sdk/request.py: Request, Flags", "snuba_sdk/delete_query.py: DeleteQuery"]}
{"id": "C104", "title": "What print() of a delete query and repr() show is the object", "statement": "print() of a delete query is one line that holds the storage name and the column conditions as Python literals, from which they can be read back: two delete queries with the same text are the same. Entities with the same repr() have the same name and alias and samples of the same repr(), storages the same name and such samples; data models are not shown.", "quantifier": "all delete queries of the documented types, all entities and storages the constructors accept", "why_tests_cant": "names, conditions and the strings in them are unbounded", "anchors": ["snuba_sdk/delete_query.py: DeleteQuery.print, DeleteQuery.__repr__", "snuba_sdk/entity.py: Entity.__repr__", "snuba_sdk/storage.py: Storage.__repr__"]}
{"id": "C105", "title": "What a server reads from a request is what was written", "statement": "A server that parses the JSON of a request, parses the query in it and evaluates the query row by row finds every entry of the payload once, the same match and clauses as in the query that was built, and a WHERE that is true, false or unknown for exactly the rows for which the conditions of the query are; from a metrics request it reads the query and the settings that were given, with filters that are true for the same rows as those of the query.", "quantifier": "all requests, all queries built with the API, all rows", "why_tests_cant": "requests and queries are unbounded, and the rows a server may hold are not known to the SDK", "anchors": ["snuba_sdk/request.py: Request.serialize", "snuba_sdk/query.py: Query.serialize", "snuba_sdk/metrics_query.py: MetricsQuery.serialize", "snuba_sdk/query_optimizers/or_optimizer.py: OrOptimizer.optimize"]}
{"id": "C106", "title": "The server is asked for the rows that a legacy body asks for", "statement": "When a legacy body is converted and the request is sent, the WHERE that a server reads from the JSON and the SnQL in it is true, false or unknown for exactly the rows for which the body's organization, project and time bounds and the AND of its conditions (each a comparison or the OR of a list of comparisons) are; the HAVING it reads is that of the body's having list.", "quantifier": "all legacy bodies decoded from JSON, all entities, all rows", "why_tests_cant": "bodies nest without bound and the rows are not known to the SDK; parsing, merging, printing and JSON encoding each would have to be tested in combination", "anchors": ["snuba_sdk/legacy.py: json_to_snql", "snuba_sdk/request.py: Request.serialize", "snuba_sdk/query.py: Query.serialize", "snuba_sdk/query_optimizers/or_optimizer.py: OrOptimizer.optimize"]}
{"id": "C107", "title": "A change of a query arrives at the server as that change", "statement": "When a clause of a query is set, the match and every other clause that a server reads from the text are unchanged, and the clause that was set is read as the value given. With more conditions in WHERE or HAVING no other row passes the clause that is read, the conditions added are ANDed to those there were, and the order and repetition of conditions do not matter.", "quantifier": "all pairs of queries on the same entity, storage, join or subquery; all values, clauses and rows", "why_tests_cant": "printing, merging and reading work on the whole text, so that a change in one clause could show in another; queries and rows are unbounded", "anchors": ["snuba_sdk/query.py: Query.set_where", "snuba_sdk/query.py: Query.serialize", "snuba_sdk/query_visitors.py: Printer", "snuba_sdk/query_optimizers/or_optimizer.py: OrOptimizer.optimize"]}
{"id": "C108", "title": "A change of a metrics query arrives at the server as that change", "statement": "Setting a field of a MetricsQuery changes, in what is sent, the MQL text only if the field is the query and otherwise the one entry of the mql_context that shows the field. Filters that are added to a query are ANDed, in the text as parse_mql reads it, to those there were, and the order and repetition of filters do not matter.", "quantifier": "all metrics queries, fields, values, filters and rows", "why_tests_cant": "serialize() also rewrites the query of the object and builds text and context in one pass, so that a change of one field could show elsewhere; queries and rows are unbounded", "anchors": ["snuba_sdk/metrics_query.py: MetricsQuery.set_limit", "snuba_sdk/metrics_query.py: MetricsQuery.serialize", "snuba_sdk/mql_visitor.py: MQLVisitor.visit", "snuba_sdk/mql/mql.py: parse_mql"]}
{"id": "C109", "title": "A query means the same on its own and as the subquery of another", "statement": "When a query is used as the subquery of another, what a server reads between the braces is what it reads from the text of that query alone, but for the conditions in WHERE, and these are true, false or unknown for the same rows. Whatever can be sent as a subquery can be sent on its own.", "quantifier": "all queries with a subquery, to any depth; all rows", "why_tests_cant": "the OR optimizer rewrites the outer query only, so that the same query is sent in two forms; queries and rows are unbounded", "anchors": ["snuba_sdk/query.py: Query.serialize", "snuba_sdk/query.py: Query._optimize", "snuba_sdk/query_visitors.py: Printer", "snuba_sdk/query_optimizers/or_optimizer.py: OrOptimizer.optimize"]}
{"id": "C110", "title": "A delete request deletes exactly the rows it describes", "statement": "Reading the columns that arrive in the JSON of a delete request as the documentation explains them (column IN list, joined by AND), a row of the table is deleted exactly if every column named in column_conditions holds one of the values listed for it. At least one column is restricted to a non-empty list, so there are rows that stay. Naming more columns or fewer values deletes fewer rows.", "quantifier": "all delete requests that serialize, with integers of any size and strings of Unicode scalar values; all rows", "why_tests_cant": "conditions, values and rows are unbounded, and a value that arrives changed deletes other rows than the ones meant", "anchors": ["snuba_sdk/delete_query.py: DeleteQuery.validate", "snuba_sdk/delete_query.py: DeleteQuery.serialize", "snuba_sdk/request.py: Request.serialize"]}
{"id": "C111", "title": "str() of an incomplete metrics query raises for the first field that is wrong", "statement": "str() of a MetricsQuery does not validate. If a field cannot be written (a required one is missing, or a time, rollup, limit, offset, extrapolate or query is of another class), str() raises InvalidMetricsQueryError for a missing and AttributeError for a misplaced value, for the first such field in the order of the class, whatever the later fields hold. If every field can be written, str() is the JSON of the MQL and its settings, and for a query that validates it is the same as print().", "quantifier": "all metrics queries, also ones that validation refuses; scopes and mappings of another class and bytes as the query are excluded", "why_tests_cant": "the fields hold arbitrary values in any combination", "anchors": ["snuba_sdk/metrics_query.py: MetricsQuery.__str__", "snuba_sdk/metrics_query.py: MetricsQuery.print", "snuba_sdk/mql_visitor.py: MQLPrinter"]}
