"""Writes /verif/properties.jsonl from the table below (kept as a script so the file stays well-formed)."""
import json, os
P = []
def p(id, title, statement, quantifier, why, anchors):
    P.append(dict(id=id, title=title, statement=statement, quantifier=quantifier, why_tests_cant=why, anchors=anchors))

S="snuba_sdk/"
p("C01","Column construction accepts exactly the column-name language",
 "Column(name, entity) succeeds exactly when name is a str consisting of one ASCII letter or underscore, then any number of word characters, '.', ':', '/' or '@', optionally followed by one '[key]' whose key has no square bracket, optionally followed by one final newline; and entity is None or an Entity with a non-empty alias whose data model (if any) lists the column. Every refusal is an InvalidColumnError.",
 "every Python value passed as name and as entity, strings of any length over all code points",
 "infinitely many strings; a test suite samples names, and regex corner cases ($ before a final newline, unicode \\w) are exactly what samples miss",
 [S+"column.py:Column.validate", S+"column.py:column_name_re", S+"column.py:Column.validate_data_model"])
p("C02","Subscripted columns decompose into subscriptable and key",
 "After Column(name) succeeds, subscriptable/key are both None iff name has no '['; otherwise name == subscriptable + '[' + key + ']' and neither part contains a bracket.",
 "every accepted column name", "unbounded set of names and keys", [S+"column.py:Column.validate"])
p("C03","A subscripted column of an entity whose schema has the base column is accepted",
 "If the data model of an aliased Entity contains the base column 'tags', then Column('tags[k]', entity) is accepted, in agreement with Query.validate on an unaliased entity, which checks only the base column.",
 "every base column, key and data model", "needs all schema/key pairs; order of effects inside the constructor decides it", [S+"column.py:Column.validate", S+"column.py:Column.validate_data_model"])
p("C04","An alias can never break out of its back-quotes",
 "If Function/CurriedFunction/AliasedExpression accepts an alias then it is a non-empty string of characters from a fixed safe set (plus at most one final newline), in particular without back-quote, quote, space or backslash, so the text ' AS `alias`' printed in SnQL is read back as exactly that alias.",
 "every alias value and every text following the alias", "injection safety is a statement about all strings", [S+"expressions.py:ALIAS_RE", S+"function.py:CurriedFunction.validate", S+"aliased_expression.py:AliasedExpression.validate", S+"visitors.py:Translation._visit_aliased_expression"])
p("C05","Function construction accepts exactly the documented shapes",
 "CurriedFunction(function, initializers, parameters, alias) succeeds exactly when function is a str in the function-name language, initializers is None or a sequence of literals/Columns, alias is None or a legal alias, and parameters is None or a sequence whose items are Columns, functions, Identifiers, Lambdas or scalars (nested to any depth).",
 "all argument values, nested to any depth", "unbounded nesting of lists and tuples", [S+"function.py:CurriedFunction.validate", S+"function.py:function_name_re", S+"expressions.py:is_scalar"])
p("C06","Entity, storage, identifier and relationship names are safe words",
 "Entity/Storage/Identifier construction accepts a name exactly when it is a non-empty word of the respective ASCII alphabet, optionally followed by one newline; Lambda accepts exactly sequences of identifiers with a function body; Relationship requires two aliased entities and a non-empty name.",
 "all argument values", "all strings", [S+"entity.py:Entity.validate", S+"storage.py:Storage.validate", S+"function.py:Identifier.validate", S+"function.py:Lambda.validate", S+"relationships.py:Relationship.validate"])
p("C07","Numeric clauses stay inside their documented bounds",
 "Limit accepts exactly the integers 1..10000, Offset the integers >= 0, Granularity the integers >= 1, LimitBy counts 1..10000, and each prints as the decimal numeral of that integer.",
 "every Python value, integers of any size", "all integers and all non-integers", [S+"expressions.py:_validate_int_literal", S+"orderby.py:LimitBy.validate", S+"visitors.py:Translation._visit_int_literal", S+"visitors.py:Translation._visit_limitby"])
p("C08","Condition construction accepts exactly well-typed conditions",
 "Condition(lhs, op, rhs) succeeds exactly when lhs is a Column or function, op is an Op, rhs is None for the unary operators, and rhs is a Column, a function or a scalar of any nesting depth; otherwise it raises a subclass of InvalidExpressionError.",
 "all argument triples", "unbounded values", [S+"conditions.py:Condition.validate", S+"expressions.py:is_scalar"])
p("C09","BooleanCondition construction accepts exactly lists of two or more conditions",
 "And/Or/BooleanCondition succeed exactly when given a BooleanOp and a list or tuple of at least two conditions.",
 "all argument values and lengths", "unbounded lists", [S+"conditions.py:BooleanCondition.validate"])
p("C10","Scalar recognition is exact at every nesting depth",
 "is_scalar(v) is True exactly for literals and for lists/tuples nested to any depth whose leaves are literals or Expressions, raises InvalidExpressionError exactly for a list/tuple containing something else, and is False for everything else.",
 "all values, any nesting", "recursive structure of unbounded depth", [S+"expressions.py:is_scalar"])
p("C11","Function equality ignores the alias",
 "Two functions that differ only in alias compare equal (and equal functions hash equal), as the comment on __eq__ promises; function equality is reflexive and symmetric.",
 "all pairs of functions", "all pairs, including Function vs CurriedFunction", [S+"function.py:CurriedFunction.__eq__", S+"function.py:Function"])
p("C12","SnQL string literals are self-delimiting and decode to the original text",
 "For every string s the printed literal starts and ends with a single quote, contains no raw newline, and a reader that undoes \\\\, \\' and \\n reading the literal followed by any text returns exactly s and leaves exactly that text. Hence no string value can inject SnQL.",
 "every string and every following text", "injection safety over all strings", [S+"visitors.py:Translation._stringify_scalar"])
p("C13","Printed SnQL literals, arrays and tuples can be read back uniquely",
 "For NULL, booleans, integers, strings and lists/tuples of them nested to any depth, the printed text determines the value: a reader recovers the value (lists as array(...), tuples as tuple(...)) and the following text; so two different values never print alike.",
 "every nested literal and every following text that cannot extend a number", "unbounded nesting, all strings", [S+"visitors.py:Translation._stringify_scalar"])
p("C14","Bytes print as the string they encode",
 "Printing a bytes value that is the UTF-8 encoding of s gives exactly what printing s gives, and bytes that are not UTF-8 are refused with an error instead of being printed.",
 "all byte strings", "all byte sequences, including over-long and surrogate encodings", [S+"visitors.py:Translation._stringify_scalar"])
p("C15","Timezone-aware datetimes are printed as the same instant in UTC",
 "Printing a timezone-aware datetime gives toDateTime('...') of a naive datetime denoting the same instant in UTC (or raises OverflowError when that instant is outside years 1..9999); naive datetimes are printed unchanged.",
 "every datetime, every UTC offset below 24h", "calendar arithmetic over all dates and offsets", [S+"visitors.py:Translation._stringify_scalar"])
p("C16","A sampled entity/storage prints a positive sample rate",
 "Entity/Storage accept only a float sample > 0, and the SAMPLE clause prints a positive decimal number.",
 "every float", "all floats incl. nan, inf and tiny values", [S+"entity.py:Entity.validate", S+"storage.py:Storage.validate", S+"visitors.py:Translation._visit_entity", S+"visitors.py:Translation._visit_storage"])
p("C17","The boolean structure of a printed condition can be read back",
 "For conditions whose atoms print without structural characters, reading the printed text with a grammar of parentheses, AND and OR gives back the tree of And/Or and atoms that was printed; so nesting and precedence are never lost.",
 "all condition trees of any depth and width", "unbounded trees", [S+"visitors.py:Translation._visit_boolean_condition", S+"query_visitors.py:Printer._visit_where"])
p("C18","Columns are qualified by their entity alias exactly in join queries",
 "In the SnQL text of a query over a Join every column with an entity is printed as alias.name and every joined entity as (alias: name); in a query over an Entity, Storage or subquery no alias is printed; a subquery is printed with its own rule regardless of the outer query.",
 "all queries, subquery nesting of any depth", "unbounded nesting; mutable flag on the translator", [S+"visitors.py:entity_aliases", S+"query_visitors.py:Printer.visit", S+"query_visitors.py:Printer._visit_match", S+"visitors.py:Translation._visit_column"])
p("C19","The SnQL text contains exactly the clauses that are set, in SnQL order",
 "The serialized query is the single-space join, in the order MATCH SELECT BY ARRAY JOIN WHERE HAVING ORDER BY LIMIT..BY LIMIT OFFSET GRANULARITY TOTALS, of one clause for each field that is set (and non-empty), and of nothing else.",
 "every query", "2^11 combinations of clauses times unbounded contents", [S+"query_visitors.py:Printer", S+"query.py:Query.serialize"])
p("C20","print() and serialize() describe the same query",
 "When no top-level OR is rewritten, Query.print() and Query.serialize() differ only in the newline/space between clauses of the outermost query; both fail on exactly the same queries.",
 "every query", "all queries", [S+"query.py:Query.print", S+"query.py:Query.serialize"])
p("C21","Serialized SnQL stays on one line",
 "If no name in the query ends in a newline, the serialized query has no newline, whatever strings appear as values.",
 "every query", "all strings in all positions", [S+"visitors.py:Translation", S+"query_visitors.py:Printer"])
p("C22","Setters change exactly one clause of a new copy",
 "Every set_x returns a query in which clause x is the given value and all other clauses are those of the receiver; setting twice keeps the last value; setters of different clauses commute; a refused value raises and yields no query.",
 "all queries, all values, all sequences of setter calls", "all histories of setter calls", [S+"query.py:Query._replace", S+"query.py:Query.set_*"])
p("C23","Setters only let clause-typed values in",
 "A query built by Query(entity) and any sequence of setter calls has only clause-typed contents (select a non-empty list of selectable expressions, where/having lists of conditions, and so on), so its validate/serialize can only fail for the documented reasons.",
 "every history of setter calls", "all histories", [S+"query.py:Query.set_*", S+"expressions.py:list_type"])
p("C24","set_match accepts what the constructor accepts",
 "Query(m) succeeds iff q.set_match(m) succeeds, for Entity, Storage, Join and subquery matches (as the signature of set_match says).",
 "all matches", "all match values", [S+"query.py:Query.set_match", S+"query.py:Query.__post_init__"])
p("C25","A validated join query qualifies every column with a joined entity",
 "If validate() accepts a query over a Join, every column referenced in any clause (in function arguments, curried initializers, lambdas and conditions at any depth, outside arrays/tuples) names an entity whose alias occurs in the Join with that entity name.",
 "all join queries", "unbounded expressions", [S+"query_validation.py:_validate_join", S+"visitors.py:ExpressionFinder", S+"query_visitors.py:ExpressionSearcher"])
p("C26","A validated outer query references only what its subquery selects",
 "If validate() accepts a query over a subquery, every column referenced in the outer query is the name of a column, or the alias of a function, in the subquery's select; and an aliased expression selected by the subquery can be referenced by its alias.",
 "all nested queries of any depth", "unbounded nesting", [S+"query_validation.py:_validate_subquery"])
p("C27","A validated query references only columns of its data model",
 "If validate() accepts a query over an Entity/Storage with a data model, every referenced column (or the base of a subscripted one) is in the data model; without a data model every column is accepted.",
 "all queries and data models", "unbounded", [S+"query_validation.py:_validate_entity", S+"query_validation.py:_validate_storage", S+"column.py:Column.validate_data_model"])
p("C28","Query.validate accepts exactly the valid queries",
 "For a query built with the API, validate() succeeds iff select is non-empty, totals=True implies a non-empty groupby, the inner query is valid, and the match rules for columns hold.",
 "every query built from API objects", "all queries", [S+"query_visitors.py:Validator", S+"query_validation.py:validate_match"])
p("C29","Columns inside arrays and tuples are validated too",
 "No column printed in the query escapes column validation: in particular a column inside a list/tuple argument or right-hand side must satisfy the match rules.",
 "all queries", "all nestings", [S+"visitors.py:ExpressionFinder._visit_curried_function", S+"visitors.py:ExpressionFinder._visit_condition"])
p("C30","Validation does not depend on set iteration order",
 "Whether validate(), Join construction and required-column checking succeed is the same for every iteration order of the Python sets they build (hash randomisation).",
 "every permutation of every set that is iterated", "orders are chosen by the interpreter per process", [S+"query_validation.py:_validate_join", S+"relationships.py:Join.validate", S+"query_validation.py:_check_entity_required_columns_in_conditions"])
p("C31","Required-column checking is exact",
 "validate_required_columns succeeds on a query over an entity with a data model iff every required column has a top-level = or IN condition, and the time column has a top-level >= and a top-level < condition on this entity's alias, where top level means reachable through And only.",
 "all entities, schemas and condition groups", "unbounded condition trees", [S+"query_validation.py:_check_entity_required_columns_in_conditions", S+"query_validation.py:_matching_condition_exists"])
p("C32","Flattening And preserves meaning",
 "get_first_level_and_conditions returns a list without And whose conjunction is equivalent to the conjunction of the input under every truth assignment of the other conditions, in the original order.",
 "all condition groups, all truth assignments", "unbounded nesting", [S+"conditions.py:get_first_level_and_conditions"])
p("C33","A validated API-built query always serializes",
 "If every part of a query was accepted by the SDK's constructors and setters and validate() succeeds, then serialize() and print() return text (except for the named hazards: undecodable bytes, UTC overflow, an Extrapolate hidden in an array).",
 "every query built by the API", "all queries", [S+"query.py:Query.serialize", S+"visitors.py:Translation"])
p("C34","The OR optimizer preserves the meaning of the filters",
 "For every row and every interpretation in which x IN (v1..vn) means x = v1 OR ... OR x = vn (three-valued), the optimized condition group has the same truth value as the original.",
 "every condition group, every interpretation of columns, functions and operators", "all trees and all data", [S+"query_optimizers/or_optimizer.py:OrOptimizer"])
p("C35","The OR optimizer is idempotent and changes nothing else",
 "optimize returns None iff no top-level OR consists of = conditions on one left-hand side; otherwise the result has the same length and differs only at those positions; optimizing the result again returns None; it never raises on valid conditions.",
 "every condition group", "all groups", [S+"query_optimizers/or_optimizer.py:OrOptimizer"])
p("C36","serialize() only rewrites WHERE, to an equivalent filter",
 "The text produced by serialize() is the plain printing of a query that has the same clauses except WHERE, and whose WHERE has the same truth value on every row.",
 "every query", "all queries", [S+"query.py:Query._optimize", S+"query.py:Query.serialize"])
p("C37","Rollup accepts exactly consistent rollups",
 "Rollup(interval, totals, orderby, granularity) succeeds exactly when at least one of interval/totals is given, interval >= 10 and >= granularity, granularity is one of 10, 60, 3600, 86400, orderby is a Direction only without interval; so a serialized rollup always has an allowed granularity.",
 "all argument values", "all integers and all other values", [S+"timeseries.py:Rollup.validate", S+"metrics_query_visitors.py:Validator._visit_rollup"])
p("C38","Metric, Timeseries and MetricsScope accept exactly well-typed values",
 "Metric needs a public name or an mri (strings) and an int id; Timeseries needs a Metric, a str aggregate, literal aggregate_params, list filters of conditions and list groupby of columns; MetricsScope needs integer lists; set_* keep the other fields.",
 "all argument values", "all values", [S+"timeseries.py:Metric.validate", S+"timeseries.py:Timeseries.validate", S+"timeseries.py:MetricsScope.validate"])
p("C39","Formula validation is exact at any depth",
 "Formula.validate succeeds iff its parameters are numbers, Timeseries or Formulas, at least one Timeseries occurs in the formula tree, and all group-bys present anywhere in the tree are equal.",
 "formula trees of any depth and width", "explicit-stack traversal of unbounded trees", [S+"formula.py:Formula.validate", S+"formula.py:Formula.__validate_consistency"])
p("C40","MQL string literals are self-delimiting",
 "For every string s, the MQL literal printed for s is matched by the grammar's quoted-string token as exactly that literal, whatever follows; so no value can inject MQL.",
 "every string and every following text", "all strings", [S+"visitors.py:Translation._stringify_scalar", S+"mql/mql.py:MQL_GRAMMAR"])
p("C41","MQL string values survive print and parse",
 "Parsing the MQL literal printed for s gives back s.",
 "every string", "all strings: only some contain backslashes or newlines", [S+"mql/mql.py:MQLVisitor.visit_quoted_string", S+"visitors.py:Translation._stringify_scalar"])
p("C42","The operator of a metrics filter survives serialization",
 "Two filter conditions with different operators never serialize to the same MQL; in particular a comparison (>, <, >=, <=) or null test is either expressed in the MQL text or refused.",
 "all conditions", "all operators and operands", [S+"visitors.py:Translation._visit_condition_mql"])
p("C43","A serialized Timeseries parses back to itself",
 "For every Timeseries in the MQL-expressible fragment (grammar metric name, identifier aggregate, number/string aggregate params, =/!=/IN/NOT IN/LIKE filters of any boolean nesting, plain group-by names) parse_mql(serialized) returns an equal Timeseries, with a list of several filters returned as their And.",
 "every Timeseries of the fragment, filters of any depth", "PEG grammar over unbounded inputs", [S+"mql/mql.py:parse_mql", S+"mql/mql.py:MQL_GRAMMAR", S+"metrics_visitors.py:TimeseriesMQLPrinter", S+"metrics_visitors.py:FormulaMQLPrinter"])
p("C44","A serialized Formula parses back to itself",
 "For every Formula tree of the MQL-expressible fragment (binary + - * /, negate, named functions with parameters, nested to any depth) parse_mql(serialized) returns an equal Formula.",
 "formula trees of any depth", "unbounded trees", [S+"metrics_visitors.py:FormulaMQLPrinter", S+"mql/mql.py:MQLVisitor"])
p("C45","MQL arithmetic is left associative with the usual precedence",
 "Parsing t1 op1 t2 op2 ... tn gives the left-nested formula; * and / bind tighter than + and -; parentheses override.",
 "all expressions of any length", "unbounded chains", [S+"mql/mql.py:MQLVisitor.visit_expression", S+"mql/mql.py:MQLVisitor.visit_term"])
p("C46","In MQL filters AND binds tighter than OR",
 "Parsing a filter of the form f11 AND .. f1k OR f21 AND .. gives Or of Ands with the factors in order; parentheses override. Factors are tests of a tag against a quoted string, a bare word, a pattern or a list of these, and parenthesised filters.",
 "all filters of any length", "unbounded", [S+"mql/mql.py:MQLVisitor._filter", S+"mql/mql.py:MQL_GRAMMAR"])
p("C47","A validated MetricsQuery serializes",
 "If MetricsQuery.validate() succeeds then serialize() succeeds.",
 "every MetricsQuery", "all field combinations, including defaults", [S+"metrics_query.py:MetricsQuery.serialize", S+"mql_visitor.py:MQLPrinter._visit_indexer_mappings"])
p("C48","Serializing a MetricsQuery twice gives the same payload",
 "serialize() followed by serialize() on the same object returns the same mql and the same mql_context.",
 "every MetricsQuery, any number of calls", "all histories of calls", [S+"metrics_query.py:MetricsQuery.serialize", S+"metrics_query.py:MetricsQuery._optimize"])
p("C49","serialize() does not change what the MetricsQuery shows",
 "print() returns the same text before and after a call of serialize() (the class documents itself as immutable).",
 "every MetricsQuery and call sequence", "all histories of calls", [S+"metrics_query.py:MetricsQuery._optimize"])
p("C50","The mql_context carries the query's settings unchanged",
 "start, end, rollup, scope, limit, offset, extrapolate and indexer_mappings of the query appear unchanged in mql_context, missing optional ones as None.",
 "every MetricsQuery", "all values", [S+"mql_visitor.py:MQLPrinter", S+"metrics_visitors.py:RollupMQLPrinter", S+"metrics_visitors.py:ScopeMQLPrinter"])
p("C51","The request payload carries the request unchanged",
 "to_dict() has the query text, dataset, app_id, tenant_ids and parent_api of the request, mql_context exactly for metrics queries, no dataset for delete queries, and exactly the flags that are set; no flag can overwrite another key.",
 "every request", "all requests", [S+"request.py:Request.to_dict"])
p("C52","No invalid request is serialized",
 "If dataset, app_id, parent_api, tenant_ids, a flag or the query is invalid, to_dict/serialize/print raise; an accepted dataset/app_id is a non-empty string of safe characters (plus at most one final newline).",
 "every request", "all values", [S+"request.py:Request.validate", S+"request.py:FLAG_RE"])
p("C53","Flags are exactly the booleans that were set",
 "Flags.to_dict() returns exactly the flags that are not None, all booleans, and raises InvalidFlagError iff some flag is neither None nor bool.",
 "all flag values", "all values", [S+"request.py:Flags"])
p("C54","A delete query never deletes without a condition",
 "DeleteQuery.serialize succeeds iff there is at least one column condition and every condition list is non-empty, and the payload holds exactly these conditions.",
 "all condition mappings", "all mappings", [S+"delete_query.py:DeleteQuery"])
p("C55","Legacy conditions keep their conjunction-of-disjunctions meaning",
 "json_to_snql turns the legacy 'conditions' list (an AND of conditions and OR-lists) into a WHERE with the same meaning, in order, and 'having' likewise.",
 "all legacy bodies", "unbounded bodies", [S+"legacy.py:json_to_snql", S+"legacy.py:parse_condition"])
p("C56","Every recognised legacy condition is converted",
 "If is_condition recognises a legacy triple (operators are recognised case-insensitively) then parse_condition converts it.",
 "all triples", "all spellings of operators", [S+"legacy.py:is_condition", S+"legacy.py:_parse_condition_parts"])
p("C57","Converting a legacy body twice gives the same request",
 "json_to_snql leaves its input body unchanged, so a second conversion of the same body gives an equal request.",
 "all bodies, all call histories", "all histories", [S+"legacy.py:json_to_snql"])
p("C58","Legacy datetimes are recognised exactly",
 "A legacy string of the form YYYY-MM-DDTHH:MM:SS[.ffffff] or with a numeric UTC offset denoting a real date becomes that datetime, and every other string is passed through unchanged.",
 "all strings", "all strings", [S+"legacy.py:parse_datetime", S+"legacy.py:parse_scalar"])
p("C59","Organization, project and time bounds of a legacy body always end up in WHERE",
 "If a legacy body has organization, project, from_date/to_date (for an entity with a known time column), the converted query has a top-level condition for each of them.",
 "all bodies and entities", "all bodies", [S+"legacy.py:json_to_snql", S+"legacy.py:parse_extension_condition", S+"entity.py:get_required_time_column"])
p("C60","Aggregate detection is exact",
 "is_aggregation_function(name) is True for a plain name exactly when it is a base aggregate with one of the listed combinator suffixes; is_aggregate(f) holds exactly when some function in the nested parameters of f is an aggregate.",
 "all names and nested functions", "unbounded nesting", [S+"snuba.py:is_aggregation_function", S+"query_visitors.py:is_aggregate"])
p("C61","The request text is JSON that denotes the payload",
 "Request.serialize() and print() return a JSON text (RFC 8259) that denotes exactly the to_dict() payload; different payloads have different texts, and every valid request can be sent.",
 "every request", "all strings, numbers and nested values", [S+"request.py:Request.serialize", S+"request.py:Request.print", S+"metrics_query.py:MetricsQuery.print"])
p("C62","Every clause of a legacy body is carried over",
 "json_to_snql puts the aggregations and selected columns, array join, group by, order by (one entry per item, descending for a leading minus), limit by, limit, offset, granularity, totals, sample, dataset, app and tenant ids and flags of a legacy body unchanged into the request, and nothing else.",
 "all legacy bodies", "unbounded bodies, all types of values", [S+"legacy.py:json_to_snql", S+"legacy.py:parse_exp"])
p("C63","The SnQL text determines the query",
 "If two queries serialise to the same SnQL text, they select, filter, group, order and limit the same things: they differ at most in what SnQL has no words for (list or tuple, str or UTF-8 bytes, time zones of the same instant, Function or CurriedFunction, True or 1 as a limit) and in ORs of equalities written as IN.",
 "all pairs of queries built through the API", "pairs of unbounded queries with arbitrary strings and nesting", [S+"query.py:Query.serialize", S+"visitors.py:Translation", S+"query_visitors.py:Printer"])
p("C64","parse_mql returns a complete, printable query or raises InvalidMQLQueryError",
 "For every text parse_mql either returns a Timeseries or a Formula - never a bare number, string or partly assembled value - whose metrics, names, filters and group-by are well formed, whose Timeseries pass validation and which can be printed back to MQL, or it raises InvalidMQLQueryError.",
 "all texts", "all texts, including malformed ones, of any length and nesting", [S+"mql/mql.py:parse_mql", S+"mql/mql.py:MQLVisitor", S+"mql/mql.py:MQL_GRAMMAR"])
p("C65","A metrics query given as MQL text is sent with the same meaning",
 "If a MetricsQuery holds an MQL text and passes validation, the text that serialize() sends parses to the same query as the text that was given, several filters of one level joined by And.",
 "all texts that parse, all metrics queries holding them", "all texts, strings, metric names and nestings; parsing and printing must be inverse on all of them", [S+"metrics_query.py:MetricsQuery.serialize", S+"mql_visitor.py:MQLPrinter", S+"mql/mql.py:parse_mql", S+"metrics_visitors.py:TimeseriesMQLPrinter", S+"metrics_visitors.py:FormulaMQLPrinter"])
p("C66","The query that parse_mql returns is what the text says",
 "Every accepted MQL text is, up to white space around it, a sentence of the documented grammar read as exactly the query returned: products bind tighter than sums, filters and group-bys belong to the expression before them, AND binds tighter than OR, quoted strings lose their quotes and escapes, every argument, parameter, filter, key and metric of the text is in the query and nothing else is.",
 "all texts that parse_mql accepts", "all texts of any length and nesting; the recogniser takes the first alternative that matches, so a wrong order of alternatives changes the meaning of some text", [S+"mql/mql.py:parse_mql", S+"mql/mql.py:MQLVisitor", S+"mql/mql.py:MQL_GRAMMAR"])
p("C67","Invalid arguments are reported with the SDK's exceptions",
 "Whatever values are passed, every constructor and setter returns or raises the exception class documented for it, and validate() of a query, metrics query or request raises one of the SDK's Invalid... exceptions, never a TypeError or AttributeError.",
 "all argument values of every constructor and setter, all queries and requests", "all argument values, including wrong types at any nesting depth", [S+"expressions.py:Expression.__post_init__", S+"timeseries.py:Rollup.validate", S+"formula.py:Formula.validate", S+"query.py:Query.validate", S+"metrics_query.py:MetricsQuery.validate", S+"request.py:Request.validate"])
p("C68","SDK calls never change what an existing object sends",
 "In any sequence of SDK calls on any number of queries, metrics queries and requests that share lists and queries, what validate(), serialize() and to_dict() of an existing object (and print() and str() of a Query or Request) answer never changes: setters leave their receiver as it was, and no question - not even one that rewrites a shared MetricsQuery - changes a later answer or the outcome of a later call.",
 "all finite histories of constructor, setter, validate, serialize, print, str and to_dict calls on a shared heap of objects", "all interleavings of calls and all ways of sharing objects", [S+"query.py:Query._replace", S+"metrics_query.py:MetricsQuery._optimize", S+"metrics_query.py:MetricsQuery.serialize", S+"request.py:Request.to_dict"])
p("C69","A query is independent of the lists it was built from",
 "A Query is immutable, so what it sends does not change when the caller later changes a list that was passed to its constructor or setters; the only changes to an object are explicit assignments to its attributes.",
 "all finite histories of SDK calls, list appends and attribute assignments", "all interleavings of calls and all ways of sharing objects", [S+"query.py:Query", S+"query.py:Query._replace", S+"query.py:Query.set_select"])
p("C70","The text of a request determines the request",
 "Two requests whose serialize() gives the same text are the same request: same dataset, application id, parent api, tenant ids and flags, the same kind of query, and queries that say the same (alike SnQL queries, the same metrics query with the same time range, rollup, scope, limit, offset and extrapolation, the same delete conditions).",
 "all pairs of requests with any query, flags and tenant ids", "a claim about all pairs of requests with the same text", [S+"request.py:Request.serialize", S+"request.py:Request.to_dict", S+"delete_query.py:DeleteQuery.serialize", S+"metrics_query.py:MetricsQuery.serialize"])
p("C71","A metrics query is read back with the filters and values it was written with",
 "The MQL text of a Timeseries or Formula that validates is accepted by parse_mql, and the result has the same filters (operators, values, nesting), the same operands and the metric that was asked for (its mri, or its public name if it has none); two queries that differ in the value of a filter never become the same query.",
 "every Timeseries and Formula: filter values of every literal type, columns, lists and tuples, conditions of any nesting, formulas of any depth and number of operands", "the values, the nesting of the conditions and the formula trees are unbounded", [S+"metrics_visitors.py:TimeseriesMQLPrinter", S+"metrics_visitors.py:FormulaMQLPrinter", S+"visitors.py:Translation._visit_condition_mql", S+"mql/mql.py:parse_mql"])
p("C72","A string value cannot break out of its place in a metrics query",
 "Take any Timeseries or Formula that MQL can express and put any other strings into its filters and into the aggregate parameters of its Timeseries: the text that is sent is accepted by parse_mql, and the query read has the same metrics, aggregates, keys, nesting, negations and group-bys, and as many strings in the same places; different strings are read as different strings.",
 "all queries MQL can express, all strings put into them", "no set of test strings shows that no string closes a quote or a brace", [S+"metrics_visitors.py:TimeseriesMQLPrinter", S+"visitors.py:Translation._stringify_literal", S+"visitors.py:Translation._visit_condition_mql", S+"mql/mql.py:parse_mql"])
p("C73","Names and parameters cannot smuggle metrics into a query",
 "The MQL text of a Timeseries or Formula that validates asks for exactly the metrics of the query, each with its aggregate, whatever strings are given as metric name, aggregate, function name and parameters.",
 "every Timeseries and Formula, all strings in every field", "all strings in every field, formulas of any depth", [S+"timeseries.py:Metric", S+"timeseries.py:Timeseries", S+"formula.py:Formula", S+"metrics_visitors.py:FormulaMQLPrinter", S+"mql/mql.py:parse_mql"])
p("C74","Setters of a MetricsQuery change exactly one field of a new copy",
 "Each set_* method of MetricsQuery returns a copy in which its own field holds the given value (limits, offsets and extrapolation wrapped in their clause) and every other field is as before, or raises an SDK error for a value of a wrong type or range. After any chain of setters each field holds what was last given for it, so the order of setters of different fields does not matter.",
 "every MetricsQuery, every argument, every chain of setter calls", "chains of any length with any arguments, including failing ones", [S+"metrics_query.py:MetricsQuery.set_query", S+"metrics_query.py:MetricsQuery.set_start", S+"metrics_query.py:MetricsQuery.set_end", S+"metrics_query.py:MetricsQuery.set_rollup", S+"metrics_query.py:MetricsQuery.set_scope", S+"metrics_query.py:MetricsQuery.set_limit", S+"metrics_query.py:MetricsQuery.set_offset", S+"metrics_query.py:MetricsQuery.set_extrapolate", S+"metrics_query.py:MetricsQuery.set_indexer_mappings", S+"metrics_query.py:MetricsQuery._replace"])
p("C75","Equal queries send the same text",
 "If two queries compare equal with ==, serialize() and print() give the same text for both, or raise the same error for both.",
 "all pairs of queries built with the API, with expressions of any depth and any nesting of subqueries", "all pairs of equal queries; equality of nested dataclasses is generated code", [S+"query.py:Query", S+"query.py:Query.serialize", S+"query.py:Query.print", S+"function.py:CurriedFunction.__eq__", S+"query_visitors.py:Printer", S+"query_optimizers/or_optimizer.py:OrOptimizer"])
p("C76","Equal metrics queries send the same text",
 "If two metrics queries compare equal with ==, serialize() gives the same MQL text and the same mql_context for both, or raises the same error for both; so does print().",
 "all pairs of metrics queries, with formulas and filters of any depth", "all pairs of equal metrics queries; equality of nested dataclasses is generated code", [S+"metrics_query.py:MetricsQuery", S+"metrics_query.py:MetricsQuery.serialize", S+"metrics_query_visitors.py:MQLPrinter", S+"metrics_visitors.py:TimeseriesMQLPrinter", S+"metrics_visitors.py:FormulaMQLPrinter", S+"timeseries.py:Timeseries", S+"formula.py:Formula"])
p("C77","Equal queries are equally valid",
 "If two queries compare equal with ==, validate() and the check for required columns have the same outcome for both: both pass, or both raise the same error. The same holds for metrics queries.",
 "all pairs of queries built with the API, with expressions of any depth and any nesting of subqueries; all pairs of metrics queries with formulas of any depth", "all pairs of equal queries; equality of nested dataclasses is generated code", [S+"query.py:Query.validate", S+"query_visitors.py:Validator", S+"query_validation.py:validate_match", S+"query_validation.py:_validate_subquery", S+"query_validation.py:validate_required_columns", S+"function.py:CurriedFunction.__eq__", S+"metrics_query.py:MetricsQuery.validate", S+"formula.py:Formula.validate"])
p("C78","MetricsQuery.validate() accepts exactly the complete queries",
 "validate() of a metrics query succeeds exactly if the query is a valid Timeseries or Formula, or MQL text that parses to one; start and end are datetimes; there is a consistent rollup whose granularity is set, and a scope; and limit (1 to 10000), offset (at least 0), extrapolate and indexer mappings are absent or of their types. Any other query is refused by validate() and by serialize() with one of four error classes. A complete query given as text serializes exactly if its indexer mappings are set.",
 "all metrics queries whose formulas have group-by fields of the annotated types, with formulas of any depth, MQL texts of any length, and any values in the other fields", "all combinations of field values, and all MQL texts", [S+"metrics_query.py:MetricsQuery.validate", S+"metrics_query_visitors.py:Validator", S+"formula.py:Formula.validate", S+"timeseries.py:Rollup.validate", S+"timeseries.py:Timeseries.validate"])
p("C79","A string value cannot break out of its place in a SnQL query",
 "Take any query and put other strings in the places of its string values (arguments of functions, right-hand sides, items of lists and tuples, at any depth and in subqueries): print() and serialize() raise the same error as before or give a text that differs from the old one only in those literals, one for one and in the same order. validate() and the check for required columns have the same outcome.",
 "all queries built with the API, with expressions of any depth and any nesting of subqueries, all strings put into them", "no set of test strings shows that no string closes its quotes; all places at any depth", [S+"query.py:Query.serialize", S+"query.py:Query.print", S+"query_visitors.py:Printer", S+"visitors.py:Translation._stringify_literal", S+"query_optimizers/or_optimizer.py:OrOptimizer", S+"query_validation.py:validate_required_columns"])
p("C80","A request converted from a legacy body can be sent",
 "If json_to_snql() converts a legacy body that came from JSON, the resulting request can be sent: its query is a valid query with clauses of the right types, its settings are valid, and validate(), serialize() and print() succeed.",
 "all legacy bodies made of JSON values, with conditions and expressions of any nesting, and all entity names", "all JSON bodies of any size and depth", [S+"legacy.py:json_to_snql", S+"legacy.py:parse_exp", S+"legacy.py:parse_condition", S+"legacy.py:parse_scalar", S+"query.py:Query.validate", S+"query.py:Query.serialize", S+"request.py:Request.validate", S+"request.py:Request.serialize"])
p("C81","Invalid legacy bodies are reported with the SDK's exceptions",
 "For a legacy body it cannot convert, json_to_snql() raises one of the exceptions its documentation names: InvalidExpressionError (or a subclass), InvalidQueryError or InvalidRequestError, never another one.",
 "all legacy bodies, with conditions and expressions of any nesting, and all entity names", "all bodies of any size and depth, including malformed ones", [S+"legacy.py:json_to_snql", S+"legacy.py:parse_exp", S+"legacy.py:parse_condition", S+"legacy.py:parse_extension_condition", S+"legacy.py:is_condition"])
p("C82","MQL queries can be combined by putting them in parentheses",
 "An MQL text that parse_mql() accepts on its own, without white space at its ends and with its double quotes and backticks closed, means the same inside a larger text when it is put in parentheses: (s) is s, (s1) + (s2) is the sum of the two queries (likewise -, *, / with the usual precedence), -(s) its negation, f((s1), (s2)) the call, and (s){filter} by (keys) is s with the filter and the keys added.",
 "all accepted texts, combined to any depth", "PEG grammar over unbounded inputs: reading a text up to its end says nothing about reading it in front of more text", [S+"mql/mql.py:parse_mql", S+"mql/mql.py:MQL_GRAMMAR", S+"mql/mql.py:MQLVisitor"])
p("C83","Threads that share a MetricsQuery send what one undisturbed call sends",
 "serialize() replaces the query of the MetricsQuery it serializes by an optimized one, reading and writing the attribute step by step. Still, when any number of threads call validate(), serialize(), print(), str(), set_*() and the methods of requests on shared MetricsQuery objects, with their attribute accesses mixed in any order and with calls interrupted by exceptions at any point, every call that returns answers as it does on an undisturbed object: the texts sent do not depend on the schedule, an object only ever has the value it was made with or the one serialize() leaves (the latter once a serialize() returned), copies send the same whichever of the two they were made from, and no call waits for another.",
 "all programs of any number of threads, all schedules and interruption points", "The number of schedules grows exponentially with the accesses; races show up in none of the single-threaded tests", [S+"metrics_query.py:MetricsQuery.serialize", S+"metrics_query.py:MetricsQuery.validate", S+"metrics_query_visitors.py:MQLPrinter", S+"query_optimizers/or_optimizer.py:OrOptimizer", S+"request.py:Request"])
p("C84","An assignment to an attribute of a MetricsQuery stays when other threads send the query",
 "When a thread assigns to an attribute of a MetricsQuery (query.query = v, query.limit = v) while other threads call its methods, then after all calls have ended the attribute has the assigned value (or, for the query, what serialize() makes of it), unless it was assigned again.",
 "all programs of any number of threads, all schedules", "A lost update needs an assignment between two particular accesses of another thread", [S+"metrics_query.py:MetricsQuery.serialize", S+"query_optimizers/or_optimizer.py:OrOptimizer"])
p("C85","Reformatting an MQL text does not change the query",
 "If two MQL texts differ only in their white space outside double quotes and backticks - where one has a gap, the other has a gap too, of any length and kind - then parse_mql answers both alike: with equal queries, or with the same exception.",
 "all MQL texts with closed double quotes and backticks, all ways to change their gaps", "White space can stand at every place of texts of every length", [S+"mql/mql.py:MQL_GRAMMAR", S+"mql/mql.py:parse_mql"])
p("C86","What valid queries consist of can be combined",
 "A query that validates stays valid when filters, expressions, orders and other clause contents are left out, repeated, reordered or replaced with those of other valid queries on the same match, as long as something is selected and totals are asked for only together with groups. Any clause other than SELECT can be dropped (BY only without totals). Further filters never break the check of the required columns.",
 "all queries on entities, storages, joins and subqueries, any number of source queries, all clauses", "Queries are assembled from pieces in unboundedly many ways; tests validate a few finished queries", [S+"query_visitors.py:Validator", S+"query_validation.py:validate_match", S+"query_validation.py:validate_required_columns"])
p("C87","What a query shows can be used by a query on top of it",
 "If a query validates, then every name it shows - the names of its columns and the aliases of its functions and aliased expressions - can be used as a column of a query that matches on it, and any number of them together.",
 "all valid queries of every nesting depth, all clauses of the outer query", "Subqueries nest without bound and every alias can be used", [S+"query.py:Query.set_match", S+"query_validation.py:_validate_subquery", S+"aliased_expression.py:AliasedExpression"])
p("C88","A data model can be extended or dropped without invalidating queries",
 "A Column that is accepted for an entity with a data model is accepted with a model that has further columns, and without a model. A query that validates still validates when the models of its entities and storages are extended or dropped. If no model requires more than before, a query that has its required columns still has them.",
 "all columns, all queries of every nesting depth, all data models and all extensions of them", "A schema change meets all queries of all users, not those of the tests", [S+"column.py:Column.validate_data_model", S+"schema.py:DataModel", S+"query_validation.py:validate_required_columns"])
p("C89","Only the documented keys of a legacy body count, in any order",
 "json_to_snql answers two bodies that have the same values under the 24 keys it knows with equal requests, or with the same exception, whatever other keys they have and in whatever order. Afterwards the two bodies again have the same values under these keys, and other keys keep their values.",
 "all legacy bodies, all keys, values and orders", "There are unboundedly many further keys and orders", [S+"legacy.py:json_to_snql"])
p("C90","A key of a legacy body that is None counts as left out",
 "json_to_snql answers a body with None under some of its keys like the body without these keys.",
 "all legacy bodies, all sets of keys", "Every subset of the keys can be None, with every value of the others", [S+"legacy.py:json_to_snql"])
p("C91","Lists and tuples can be exchanged in a legacy body",
 "json_to_snql answers two bodies that differ only in lists and tuples - at any depth of their values - with equal requests, or with the same exception.",
 "all legacy bodies, all values of every depth, all ways to exchange lists and tuples", "Bodies nest without bound, and JSON decoders, caches and callers disagree on lists and tuples", [S+"legacy.py:json_to_snql", S+"legacy.py:parse_scalar", S+"legacy.py:parse_exp"])
p("C92","The isoformat() text of a datetime is as good as the datetime in a legacy body",
  "Given a legacy body, exchanging a datetime in the right-hand side of a condition (also inside lists, and in having) for the text that isoformat() gives for it does not change the outcome of the conversion, and such a text under from_date or to_date gives a condition with exactly that datetime. (Right-hand sides of tags[...] and release are texts by design.)",
  "every legacy body, datetime and UTC offset, including offsets with seconds and fractions of seconds",
  "the text is read by trying three strptime formats after removing colons behind a plus sign: unboundedly many dates, times and offsets, with ambiguous digits",
  [S+"legacy.py:parse_datetime",S+"legacy.py:parse_scalar",S+"legacy.py:json_to_snql"])
p("C93","An object has the attributes it was constructed with",
  "Whatever arguments a constructor of the SDK accepts, the object has exactly those as its attributes (a Column also has the subscript and key that its name implies): none is dropped, exchanged or converted. So two objects constructed with other arguments, or of different classes, differ, and constructing an object again from its own attributes (as dataclasses.replace does) succeeds and gives the same object.",
  "all classes of expressions, clauses, conditions and metrics, all argument values of any depth",
  "all argument values; tests look at a few attributes of a few objects",
  [S+"column.py:Column",S+"function.py:CurriedFunction",S+"function.py:Lambda",S+"conditions.py:Condition",S+"conditions.py:BooleanCondition",S+"entity.py:Entity",S+"storage.py:Storage",S+"relationships.py:Join",S+"orderby.py:LimitBy",S+"expressions.py:Limit",S+"timeseries.py:Timeseries",S+"timeseries.py:Rollup"])
p("C94", "Metrics queries and requests that share parts do not disturb each other",
  "In a program whose MetricsQuery, Timeseries, Formula, MetricsScope, DeleteQuery and Request objects share Timeseries, formulas, scopes, lists and dictionaries, no SDK call (constructor, setter, validate(), print(), str(), serialize(), to_dict()) changes what an existing object sends or whether it is valid, although serialize() rewrites the query it is called on; and an assignment, append or item assignment of the caller changes only objects that have the changed object among their parts.",
  "all programs of constructor calls, setter calls, questions and changes by the caller, with any sharing; all objects in them; all questions but print() and str() of a MetricsQuery",
  "which objects share which parts and in which order they are sent is unbounded; tests send one query at a time",
  [S+"metrics_query.py: MetricsQuery.serialize, _optimize, set_*", S+"timeseries.py: Timeseries, MetricsScope", S+"formula.py: Formula", S+"delete_query.py: DeleteQuery", S+"request.py: Request"])
p("C95", "A change to a part reaches the metrics queries that use it, whether they were sent before or not",
  "When the caller changes a Timeseries, a list, a scope or a dictionary, every metrics query and request that has it among its parts sends the changed value afterwards, no matter which questions (validate(), serialize(), to_dict(), ...) were asked before the change; later constructor and setter calls are not affected by earlier questions either.",
  "all programs of constructor calls, setter calls, questions and changes by the caller, with any sharing",
  "the effect depends on the order of questions and changes in an unbounded history",
  [S+"metrics_query.py: MetricsQuery.serialize, _optimize", S+"timeseries.py: Timeseries"])
p("C96", "What to_dict() and serialize() return belongs to the caller",
  "Changing the dictionary that Request.to_dict() or DeleteQuery.serialize() returned, or anything in it, does not change what the request, its query or any other object sends.",
  "all programs of constructor calls, setter calls, questions and changes by the caller, with any sharing; all answers",
  "tests compare the returned dictionary and never change it; the effect shows in another object, later",
  [S+"request.py: Request.to_dict", S+"delete_query.py: DeleteQuery.serialize"])
p("C97", "Without assignments, objects that share parts behave as values",
  "A program that builds Timeseries, Formulas, scopes, metrics queries, delete queries and requests from shared parts with constructors and set_* calls, and validates and sends them in any order, gets from every call the answer it would get if each constructor and setter had copied its arguments and no call had changed anything; print() and str() of a MetricsQuery are included as long as no question was asked before.",
  "all programs of constructor calls, setter calls and questions, with any sharing, and every call in them",
  "programs, their sharing and the order of calls are unbounded; tests build one object and look at it once",
  [S+"metrics_query.py: MetricsQuery", S+"timeseries.py: Timeseries, MetricsScope", S+"formula.py: Formula", S+"delete_query.py: DeleteQuery", S+"request.py: Request"])
p("C98", "Expressions work in sets and as dictionary keys",
  "Every expression the library accepts can be put into a set or used as a dictionary key, expressions that compare equal have equal hashes, so that looking an expression up in a set finds it exactly when an equal one was put in, and equality is transitive.",
  "all objects, all pairs and triples of them, all collections, and all hash functions that respect the equality of built-in values",
  "objects nest without bound and the hash of a text changes with every run of Python; a test sees a few objects under one hash seed",
  [S+"function.py: CurriedFunction.__eq__, Function", S+"conditions.py: Condition, BooleanCondition", S+"entity.py: Entity", S+"formula.py: Formula.validate"])
p("C99", "An expression that has a hash never changes",
  "Once an expression has a hash, its value, and with it its text, its hash and what it is equal to, stay the same whatever the program does with lists and other expressions; and a constructor called with arguments that have a hash (tuples instead of lists) makes an expression that has one.",
  "all programs that build expressions from shared parts and change lists, all objects they make",
  "programs, sharing and the moment of a change are unbounded",
  [S+"function.py: CurriedFunction, Function, Lambda", S+"conditions.py: Condition, BooleanCondition", S+"orderby.py: OrderBy"])
p("C100", "An expression is what its constructor was given",
  "An expression keeps the value its constructor made of its arguments, whatever happens later to the lists and expressions it was built from; a constructor call that is refused changes nothing.",
  "all programs that build expressions from shared parts and change lists, all objects they make",
  "programs, sharing and the moment of a change are unbounded",
  [S+"function.py: CurriedFunction, Function, Lambda", S+"conditions.py: Condition, BooleanCondition", S+"orderby.py: OrderBy"])
p("C101", "A changed object is as good as one built that way",
  "After an attribute of a Timeseries, MetricsScope, MetricsQuery or Request is assigned, an item is appended to a list or a key of a dictionary is set, the object answers every question exactly as one that its constructor makes from the new value and the old other ones; and a metrics query that has the object as an attribute answers as one built with that new object.",
  "all programs, all changed objects, all attributes, keys and new values, all questions",
  "programs, objects and values are unbounded",
  [S+"timeseries.py: Timeseries, MetricsScope", S+"metrics_query.py: MetricsQuery", S+"request.py: Request"])
p("C102", "A string in a legacy body cannot break out of its place",
  "When two legacy bodies differ only in strings that are values of conditions (and are no datetime texts, except where datetime texts are kept as texts: tags and release) or texts in quotes given as arguments of functions, json_to_snql() raises the same exception for both or makes requests that are the same but for their queries; the texts of print() differ only in the literals of those strings, one for one and in the same order, whatever characters the strings have. The same holds for serialize() when the left-hand sides of the conditions are the same in both bodies.",
  "all bodies, all such strings at all such places, all entities",
  "strings and bodies are unbounded",
  [S+"legacy.py: json_to_snql, parse_exp, parse_scalar", S+"visitors.py: Translation"])
p("C103", "Equal requests are equally valid and send equal payloads",
  "When two requests are equal (==), the one passes validate() exactly when the other does, and then serialize() gives the same text for both, print() too.",
  "all requests, of all kinds of queries, all flags and tenants",
  "requests are unbounded",
  [S+"request.py: Request, Flags", S+"delete_query.py: DeleteQuery"])
p("C104", "What print() of a delete query and repr() show is the object",
  "print() of a delete query is one line that holds the storage name and the column conditions as Python literals, from which they can be read back: two delete queries with the same text are the same. Entities with the same repr() have the same name and alias and samples of the same repr(), storages the same name and such samples; data models are not shown.",
  "all delete queries of the documented types, all entities and storages the constructors accept",
  "names, conditions and the strings in them are unbounded",
  [S+"delete_query.py: DeleteQuery.print, DeleteQuery.__repr__", S+"entity.py: Entity.__repr__", S+"storage.py: Storage.__repr__"])
p("C105", "What a server reads from a request is what was written",
  "A server that parses the JSON of a request, parses the query in it and evaluates the query row by row finds every entry of the payload once, the same match and clauses as in the query that was built, and a WHERE that is true, false or unknown for exactly the rows for which the conditions of the query are; from a metrics request it reads the query and the settings that were given, with filters that are true for the same rows as those of the query.",
  "all requests, all queries built with the API, all rows",
  "requests and queries are unbounded, and the rows a server may hold are not known to the SDK",
  [S+"request.py: Request.serialize", S+"query.py: Query.serialize", S+"metrics_query.py: MetricsQuery.serialize", S+"query_optimizers/or_optimizer.py: OrOptimizer.optimize"])
p("C106", "The server is asked for the rows that a legacy body asks for",
  "When a legacy body is converted and the request is sent, the WHERE that a server reads from the JSON and the SnQL in it is true, false or unknown for exactly the rows for which the body's organization, project and time bounds and the AND of its conditions (each a comparison or the OR of a list of comparisons) are; the HAVING it reads is that of the body's having list.",
  "all legacy bodies decoded from JSON, all entities, all rows",
  "bodies nest without bound and the rows are not known to the SDK; parsing, merging, printing and JSON encoding each would have to be tested in combination",
  [S+"legacy.py: json_to_snql", S+"request.py: Request.serialize", S+"query.py: Query.serialize", S+"query_optimizers/or_optimizer.py: OrOptimizer.optimize"])
p("C107", "A change of a query arrives at the server as that change",
  "When a clause of a query is set, the match and every other clause that a server reads from the text are unchanged, and the clause that was set is read as the value given. With more conditions in WHERE or HAVING no other row passes the clause that is read, the conditions added are ANDed to those there were, and the order and repetition of conditions do not matter.",
  "all pairs of queries on the same entity, storage, join or subquery; all values, clauses and rows",
  "printing, merging and reading work on the whole text, so that a change in one clause could show in another; queries and rows are unbounded",
  [S+"query.py: Query.set_where", S+"query.py: Query.serialize", S+"query_visitors.py: Printer", S+"query_optimizers/or_optimizer.py: OrOptimizer.optimize"])
p("C108", "A change of a metrics query arrives at the server as that change",
  "Setting a field of a MetricsQuery changes, in what is sent, the MQL text only if the field is the query and otherwise the one entry of the mql_context that shows the field. Filters that are added to a query are ANDed, in the text as parse_mql reads it, to those there were, and the order and repetition of filters do not matter.",
  "all metrics queries, fields, values, filters and rows",
  "serialize() also rewrites the query of the object and builds text and context in one pass, so that a change of one field could show elsewhere; queries and rows are unbounded",
  [S+"metrics_query.py: MetricsQuery.set_limit", S+"metrics_query.py: MetricsQuery.serialize", S+"mql_visitor.py: MQLVisitor.visit", S+"mql/mql.py: parse_mql"])
p("C109", "A query means the same on its own and as the subquery of another",
  "When a query is used as the subquery of another, what a server reads between the braces is what it reads from the text of that query alone, but for the conditions in WHERE, and these are true, false or unknown for the same rows. Whatever can be sent as a subquery can be sent on its own.",
  "all queries with a subquery, to any depth; all rows",
  "the OR optimizer rewrites the outer query only, so that the same query is sent in two forms; queries and rows are unbounded",
  [S+"query.py: Query.serialize", S+"query.py: Query._optimize", S+"query_visitors.py: Printer", S+"query_optimizers/or_optimizer.py: OrOptimizer.optimize"])
p("C110", "A delete request deletes exactly the rows it describes",
  "Reading the columns that arrive in the JSON of a delete request as the documentation explains them (column IN list, joined by AND), a row of the table is deleted exactly if every column named in column_conditions holds one of the values listed for it. At least one column is restricted to a non-empty list, so there are rows that stay. Naming more columns or fewer values deletes fewer rows.",
  "all delete requests that serialize, with integers of any size and strings of Unicode scalar values; all rows",
  "conditions, values and rows are unbounded, and a value that arrives changed deletes other rows than the ones meant",
  [S+"delete_query.py: DeleteQuery.validate", S+"delete_query.py: DeleteQuery.serialize", S+"request.py: Request.serialize"])
p("C111", "str() of an incomplete metrics query raises for the first field that is wrong",
  "str() of a MetricsQuery does not validate. If a field cannot be written (a required one is missing, or a time, rollup, limit, offset, extrapolate or query is of another class), str() raises InvalidMetricsQueryError for a missing and AttributeError for a misplaced value, for the first such field in the order of the class, whatever the later fields hold. If every field can be written, str() is the JSON of the MQL and its settings, and for a query that validates it is the same as print().",
  "all metrics queries, also ones that validation refuses; scopes and mappings of another class and bytes as the query are excluded",
  "the fields hold arbitrary values in any combination",
  [S+"metrics_query.py: MetricsQuery.__str__", S+"metrics_query.py: MetricsQuery.print", S+"mql_visitor.py: MQLPrinter"])
out=os.path.join(os.path.dirname(__file__),"..","properties.jsonl")
with open(out,"w") as f:
    for q in P: f.write(json.dumps(q)+"\n")
print(len(P))
