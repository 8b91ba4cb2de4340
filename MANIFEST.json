{
 "claims": [
  {
   "property": "C01",
   "status": "proved",
   "theorems": [
    "C01_column_accepts",
    "C01_column_stores",
    "C01_column_refuses"
   ],
   "note": ""
  },
  {
   "property": "C02",
   "status": "partial",
   "theorems": [
    "C02_decomposes_partial",
    "C02_decomposes_refuted"
   ],
   "note": "False of the code for names ending in a newline (Column('a[b]\\n') gets key 'b]\\n'): refuted with that witness; proved for all other names."
  },
  {
   "property": "C03",
   "status": "partial",
   "theorems": [
    "C03_subscript_schema_partial",
    "C03_subscript_schema_refuted"
   ],
   "note": "False of the code: Column('tags[k]', entity) is looked up as 'tags[k]' in the schema, because the subscriptable attribute is set after the check. Refuted; the exact behaviour is proved."
  },
  {
   "property": "C04",
   "status": "proved",
   "theorems": [
    "C04_alias_read_back",
    "C04_alias_safe",
    "C04_aliased_accepts"
   ],
   "note": ""
  },
  {
   "property": "C05",
   "status": "proved",
   "theorems": [
    "C05_function_accepts",
    "C05_function_stores",
    "C05_function_refuses"
   ],
   "note": ""
  },
  {
   "property": "C06",
   "status": "proved",
   "theorems": [
    "C06_entity_accepts",
    "C06_storage_accepts",
    "C06_identifier_accepts",
    "C06_lambda_accepts",
    "C06_relationship_accepts"
   ],
   "note": ""
  },
  {
   "property": "C07",
   "status": "partial",
   "theorems": [
    "C07_limit_bounds",
    "C07_offset_bounds",
    "C07_granularity_bounds",
    "C07_limitby_bounds",
    "C07_clauses_print_numeral",
    "C07_limitby_prints_numeral_partial",
    "C07_limitby_prints_numeral_refuted"
   ],
   "note": "Bounds proved exactly. LimitBy with count True prints 'True BY': refuted for bool counts, proved for ints."
  },
  {
   "property": "C08",
   "status": "proved",
   "theorems": [
    "C08_condition_accepts",
    "C08_condition_stores",
    "C08_condition_refuses"
   ],
   "note": ""
  },
  {
   "property": "C09",
   "status": "proved",
   "theorems": [
    "C09_boolean_accepts",
    "C09_and_or",
    "C09_boolean_refuses"
   ],
   "note": ""
  },
  {
   "property": "C10",
   "status": "proved",
   "theorems": [
    "C10_is_scalar_exact"
   ],
   "note": ""
  },
  {
   "property": "C11",
   "status": "partial",
   "theorems": [
    "C11_alias_ignored_partial",
    "C11_eq_symmetric",
    "C11_eq_reflexive",
    "C11_function_alias_counts_refuted",
    "C11_eq_transitive_refuted",
    "C11_hash_refuted"
   ],
   "note": "False for two objects of class Function (generated __eq__ compares the alias), for transitivity and for hashing: refuted with witnesses. Proved when at least one side is a CurriedFunction."
  },
  {
   "property": "C12",
   "status": "proved",
   "theorems": [
    "C12_string_reads_back",
    "C12_string_delimited"
   ],
   "note": ""
  },
  {
   "property": "C13",
   "status": "proved",
   "theorems": [
    "C13_unique",
    "C13_nested"
   ],
   "note": ""
  },
  {
   "property": "C14",
   "status": "proved",
   "theorems": [
    "C14_bytes_text",
    "C14_bytes_refused"
   ],
   "note": ""
  },
  {
   "property": "C15",
   "status": "proved",
   "theorems": [
    "C15_aware",
    "C15_naive",
    "C15_date",
    "C15_instant_exists"
   ],
   "note": ""
  },
  {
   "property": "C16",
   "status": "partial",
   "theorems": [
    "C16_sample_positive_partial",
    "C16_sample_refuses",
    "C16_sample_positive_refuted"
   ],
   "note": "False of the code: sample nan and inf are accepted and printed as 'nan'/'inf', and a positive sample up to 5e-7 prints as 0.000000. Refuted with these witnesses; proved (nearest decimal, positive) for every finite positive sample, and that every sample <= 0 is refused."
  },
  {
   "property": "C17",
   "status": "proved",
   "theorems": [
    "C17_structure_unique",
    "C17_list_unique",
    "C17_printed_structure",
    "C17_printed_structure_plain",
    "C17_plain_names_suffice"
   ],
   "note": ""
  },
  {
   "property": "C18",
   "status": "proved",
   "theorems": [
    "C18_joined_expression",
    "C18_other_expression",
    "C18_column",
    "C18_entity",
    "C18_query"
   ],
   "note": ""
  },
  {
   "property": "C19",
   "status": "proved",
   "theorems": [
    "C19_print",
    "C19_serialize"
   ],
   "note": ""
  },
  {
   "property": "C20",
   "status": "proved",
   "theorems": [
    "C20_same_text",
    "C20_same_failures"
   ],
   "note": ""
  },
  {
   "property": "C21",
   "status": "partial",
   "theorems": [
    "C21_one_line_partial",
    "C21_one_line_refuted"
   ],
   "note": "False as stated: the key of a subscripted column may contain a newline (Column('a[x\\ny]')), which is printed raw. Refuted with that witness; proved when no name contains a newline."
  },
  {
   "property": "C22",
   "status": "proved",
   "theorems": [
    "C22_accepts",
    "C22_refuses",
    "C22_frame",
    "C22_last_wins",
    "C22_commute",
    "C22_history",
    "C22_clauses_determine"
   ],
   "note": ""
  },
  {
   "property": "C23",
   "status": "proved",
   "theorems": [
    "C23_typed",
    "C23_failures"
   ],
   "note": ""
  },
  {
   "property": "C24",
   "status": "partial",
   "theorems": [
    "C24_match_partial",
    "C24_same_result",
    "C24_match_refuted"
   ],
   "note": "False of the code: Query.set_match refuses a Storage that the constructor accepts. Refuted; proved for every other match value."
  },
  {
   "property": "C25",
   "status": "proved",
   "theorems": [
    "C25_join"
   ],
   "note": ""
  },
  {
   "property": "C26",
   "status": "partial",
   "theorems": [
    "C26_subquery_partial",
    "C26_every_depth_partial",
    "C26_aliased_refuted"
   ],
   "note": "The last part is false of the code: an AliasedExpression selected by a subquery cannot be referenced by its alias. Refuted; the rest is proved."
  },
  {
   "property": "C27",
   "status": "proved",
   "theorems": [
    "C27_entity",
    "C27_storage",
    "C27_no_model",
    "C27_no_model_storage"
   ],
   "note": ""
  },
  {
   "property": "C28",
   "status": "partial",
   "theorems": [
    "C28_validate_partial",
    "C28_validate_refuted"
   ],
   "note": "False of the code: Column('tags[k]', entity) whose data model lists 'tags[k]' but not 'tags' can be built but validate() fails. Refuted; proved with the exact extra condition on such columns."
  },
  {
   "property": "C29",
   "status": "partial",
   "theorems": [
    "C29_every_column_refuted",
    "C29_outside_arrays_partial"
   ],
   "note": "False of the code: the column finder does not look into lists and tuples. Refuted with a join query printing an unqualified column inside an array."
  },
  {
   "property": "C30",
   "status": "proved",
   "theorems": [
    "C30_join",
    "C30_validate",
    "C30_required"
   ],
   "note": ""
  },
  {
   "property": "C31",
   "status": "proved",
   "theorems": [
    "C31_required"
   ],
   "note": ""
  },
  {
   "property": "C32",
   "status": "proved",
   "theorems": [
    "C32_flatten",
    "C32_leaves_unique",
    "C32_three_valued"
   ],
   "note": ""
  },
  {
   "property": "C33",
   "status": "proved",
   "theorems": [
    "C33_serialize",
    "C33_print"
   ],
   "note": ""
  },
  {
   "property": "C34",
   "status": "partial",
   "theorems": [
    "C34_python_equality_partial",
    "C34_exact_partial",
    "C34_optimizer_refuted"
   ],
   "note": "False of the code: the optimizer merges left-hand sides that are equal in Python but print differently (f(1) and f(TRUE)). Refuted; proved for interpretations that respect Python equality, and for every interpretation when the left-hand sides of one OR that are equal in Python are the same, or hold no booleans, floats or function aliases (merges_exactly)."
  },
  {
   "property": "C35",
   "status": "proved",
   "theorems": [
    "C35_never_raises",
    "C35_none",
    "C35_changes",
    "C35_idempotent"
   ],
   "note": ""
  },
  {
   "property": "C36",
   "status": "partial",
   "theorems": [
    "C36_serialize_partial",
    "C36_serialize_refuted"
   ],
   "note": "The truth of WHERE may change as in C34. Refuted; proved that only WHERE changes, and that its truth is kept under the conditions of C34."
  },
  {
   "property": "C37",
   "status": "partial",
   "theorems": [
    "C37_rollup_refuted",
    "C37_serialized_refuted",
    "C37_rollup_partial",
    "C37_interval_partial"
   ],
   "note": "False of the code: a falsy granularity (0) passes the check 'if self.granularity and ...' and is serialized. Refuted; exact acceptance proved with falsy values added."
  },
  {
   "property": "C38",
   "status": "proved",
   "theorems": [
    "C38_metric",
    "C38_timeseries",
    "C38_scope",
    "C38_metric_setters",
    "C38_timeseries_setters",
    "C38_scope_setter",
    "C38_validate"
   ],
   "note": ""
  },
  {
   "property": "C39",
   "status": "partial",
   "theorems": [
    "C39_validate_partial",
    "C39_untyped_partial",
    "C39_error_partial",
    "C39_nested_refuted",
    "C39_setters"
   ],
   "note": "Names and parameter types are checked at the root only: refuted with an inner formula without name and with a str parameter. The rest (Timeseries occurs, group-bys agree, root checks) is proved exactly at any depth for trees with fields of the annotated types."
  },
  {
   "property": "C40",
   "status": "proved",
   "theorems": [
    "C40_token",
    "C40_tag_value",
    "C40_printed"
   ],
   "note": ""
  },
  {
   "property": "C41",
   "status": "partial",
   "theorems": [
    "C41_string_refuted",
    "C41_string_partial",
    "C41_printed_partial",
    "C41_filter_partial"
   ],
   "note": "False of the code: the parser only unescapes the double quote, so backslash and newline do not survive. Refuted; proved that exactly the strings without these two characters survive."
  },
  {
   "property": "C42",
   "status": "partial",
   "theorems": [
    "C42_operator_refuted",
    "C42_serialized_refuted",
    "C42_negation_partial",
    "C42_function_partial"
   ],
   "note": "False of the code: all operators that are not negations print alike (>, <, =, IN, LIKE, ...). Refuted; proved that negation survives and a function on the right is refused."
  },
  {
   "property": "C43",
   "status": "proved",
   "theorems": [
    "C43_timeseries",
    "C43_one_filter",
    "C43_injective"
   ],
   "note": ""
  },
  {
   "property": "C44",
   "status": "proved",
   "theorems": [
    "C44_formula"
   ],
   "note": ""
  },
  {
   "property": "C45",
   "status": "proved",
   "theorems": [
    "C45_expression",
    "C45_sums",
    "C45_products",
    "C45_precedence",
    "C45_parentheses"
   ],
   "note": ""
  },
  {
   "property": "C46",
   "status": "proved",
   "theorems": [
    "C46_filter",
    "C46_precedence",
    "C46_parentheses"
   ],
   "note": ""
  },
  {
   "property": "C47",
   "status": "partial",
   "theorems": [
    "C47_text_partial",
    "C47_indexer_refuted",
    "C47_function_refuted",
    "C47_indexer_partial",
    "C47_failures_partial",
    "C47_serializes_partial"
   ],
   "note": "False of the code: indexer_mappings may be missing for validate() but not for serialize(), and a function on the right of a filter is refused when printing. Refuted twice; proved that these and the values SnQL printing refuses are the only causes (for Timeseries and Formula queries), and that a validated query given as MQL text always serializes once it has indexer_mappings."
  },
  {
   "property": "C48",
   "status": "proved",
   "theorems": [
    "C48_serialize_again",
    "C48_object_settles"
   ],
   "note": ""
  },
  {
   "property": "C49",
   "status": "partial",
   "theorems": [
    "C49_only_filters_partial",
    "C49_unchanged_partial",
    "C49_same_meaning_partial",
    "C49_print_refuted",
    "C49_print_after_partial"
   ],
   "note": "False of the code: serialize() stores the optimized query in the object. Refuted; proved that only root filters change, that they keep their meaning, and that print() afterwards shows what serialize() returned."
  },
  {
   "property": "C50",
   "status": "proved",
   "theorems": [
    "C50_context",
    "C50_has_settings",
    "C50_injective"
   ],
   "note": ""
  },
  {
   "property": "C51",
   "status": "proved",
   "theorems": [
    "C51_payload",
    "C51_context_and_dataset",
    "C51_request_after"
   ],
   "note": ""
  },
  {
   "property": "C52",
   "status": "proved",
   "theorems": [
    "C52_validate",
    "C52_serialized_iff",
    "C52_all_outputs",
    "C52_errors"
   ],
   "note": ""
  },
  {
   "property": "C53",
   "status": "proved",
   "theorems": [
    "C53_flags",
    "C53_errors"
   ],
   "note": ""
  },
  {
   "property": "C54",
   "status": "proved",
   "theorems": [
    "C54_delete",
    "C54_errors"
   ],
   "note": ""
  },
  {
   "property": "C55",
   "status": "partial",
   "theorems": [
    "C55_structure",
    "C55_one_meaning",
    "C55_where_partial",
    "C55_where_meaning_partial",
    "C55_having",
    "C55_items_convert",
    "C55_empty_or_refuted",
    "C55_having_single_or_refuted"
   ],
   "note": "False of the code in two corners: an empty OR list disappears from WHERE (false becomes true), and an OR list of one condition is refused in having although conditions accepts it. Refuted with witnesses; structure, order and truth of WHERE (no empty OR) and of HAVING proved for all bodies."
  },
  {
   "property": "C56",
   "status": "partial",
   "theorems": [
    "C56_recognised",
    "C56_converted_partial",
    "C56_simple_partial",
    "C56_lower_case_refuted"
   ],
   "note": "False of the code: operators are recognised in any case but converted only in the SDK's spelling. Refuted with 'in'; proved exactly which conditions convert, and that column/operator/value triples in the SDK's spelling always do."
  },
  {
   "property": "C57",
   "status": "partial",
   "theorems": [
    "C57_other_keys",
    "C57_unchanged_partial",
    "C57_descending_refuted",
    "C57_refuted"
   ],
   "note": "False of the code: a descending order on a function ([['-f', ...]]) is rewritten in place, so the second conversion sorts ascending. Refuted for every such body; proved that without one the body and the second result are unchanged."
  },
  {
   "property": "C58",
   "status": "partial",
   "theorems": [
    "C58_reads_partial",
    "C58_others_partial",
    "C58_others_refuted"
   ],
   "note": "False of the code: other texts (2021-1-1T1:1:1, lower-case t, a space before a one-digit day, Z) are read as datetimes too. Refuted; proved that all promised texts are read correctly and every other text is unchanged or has the exact lenient form and denotes that real datetime."
  },
  {
   "property": "C59",
   "status": "partial",
   "theorems": [
    "C59_present_partial",
    "C59_exactly",
    "C59_dropped_refuted"
   ],
   "note": "False of the code: organization/project given as a string or as 0 (or an empty list) are dropped without an error. Refuted; proved for ints, bools, lists, tuples and dates, with the exact list of conditions."
  },
  {
   "property": "C60",
   "status": "partial",
   "theorems": [
    "C60_plain_names",
    "C60_names",
    "C60_nested_partial",
    "C60_nested_aliases_partial",
    "C60_containers_refuted",
    "C60_find_column"
   ],
   "note": "Plain names are exact. Functions inside an array or tuple parameter are not seen: refuted; proved exactly for functions nested as parameters of parameters."
  },
  {
   "property": "C61",
   "status": "partial",
   "theorems": [
    "C61_unambiguous",
    "C61_request_partial",
    "C61_print_partial",
    "C61_metrics_print_partial",
    "C61_printable_partial",
    "C61_same_text_partial",
    "C61_strings_partial",
    "C61_surrogates_refuted",
    "C61_nan_refuted",
    "C61_sent",
    "C61_sent_refuted"
   ],
   "note": "False of the code for NaN and the infinities (the text is not JSON), for lone surrogates (two requests, one text) and for values json.dumps refuses (TypeError on a valid request). Refuted with witnesses; proved against an unambiguous relational JSON grammar for all other payloads, with the exact set of payloads that can be sent."
  },
  {
   "property": "C62",
   "status": "partial",
   "theorems": [
    "C62_converted",
    "C62_accepted",
    "C62_one_request",
    "C62_orderby_partial",
    "C62_orderby_refuted"
   ],
   "note": "False of the code in one corner: an order item that is neither a text nor a list (a tuple, say) silently repeats the order before it. Refuted with that witness; the exact request is proved for all bodies, and that every such body is converted when its conditions are sequences."
  },
  {
   "property": "C63",
   "status": "partial",
   "theorems": [
    "C63_text",
    "C63_unambiguous",
    "C63_same_text_partial",
    "C63_same_text_refuted",
    "C63_names_refuted"
   ],
   "note": "False of the code for columns named like literals (Column(\"NULL\") prints like None), functions without parameters and names with punctuation (a function may be called \"ff(a), gg\"). Refuted with witnesses. Proved for all other queries, via a tree grammar of SnQL shown unambiguous and a relation saying which tree a query stands for."
  },
  {
   "property": "C64",
   "status": "partial",
   "theorems": [
    "C64_result",
    "C64_errors_refuted",
    "C64_errors_partial",
    "C64_validates",
    "C64_prints"
   ],
   "note": "The result type, validation and printability are proved for every text. False of the code for the exceptions: AssertionError for a query that is a bare literal, InvalidColumnError for a column starting with a digit or a dot. Refuted with witnesses; proved that there are no others and that each needs such characters in the text."
  },
  {
   "property": "C65",
   "status": "partial",
   "theorems": [
    "C65_same_query_partial",
    "C65_changed_refuted",
    "C65_broken_refuted"
   ],
   "note": "False of the code: backslashes are doubled, empty parameter lists disappear, filters of a negation move to its operand, functions named like operators and string parameters are rewritten, backticks are dropped. Refuted with witnesses; proved for every parsed query without these exceptions."
  },
  {
   "property": "C66",
   "status": "partial",
   "theorems": [
    "C66_said_partial",
    "C66_no_comma_partial",
    "C66_names_partial",
    "C66_argument_lost_refuted",
    "C66_placeholder_refuted"
   ],
   "note": "False of the code in two ways, refuted with witnesses: a curried call whose first argument is a bare metric silently drops its other arguments, and a bare metric gets the aggregate AGGREGATE_PLACEHOLDER, which the text does not contain. Proved for every accepted text apart from these two: the declarative grammar of SpecGrammar reads the text as the query returned."
  },
  {
   "property": "C67",
   "status": "partial",
   "theorems": [
    "C67_constructors",
    "C67_setters",
    "C67_rollup_refuted",
    "C67_rollup_partial",
    "C67_query_partial",
    "C67_metrics_partial",
    "C67_request_partial",
    "C67_query_refuted",
    "C67_formula_refuted",
    "C67_request_refuted"
   ],
   "note": "Constructors and setters are proved for all argument values, except Rollup, which compares an empty text or collection given as granularity with the interval (TypeError): refuted, and proved to be the only such case. validate() is false for fields of other types than annotated (an int as limit, a condition instead of a list, a formula grouped by a number, a text as the query of a request): refuted with witnesses, proved for fields of the annotated types."
  },
  {
   "property": "C68",
   "status": "proved",
   "theorems": [
    "C68_asking",
    "C68_building",
    "C68_sdk_calls",
    "C68_own_query"
   ],
   "note": ""
  },
  {
   "property": "C69",
   "status": "partial",
   "theorems": [
    "C69_shared_list_refuted",
    "C69_isolated_partial"
   ],
   "note": "False of the code: the list passed to a setter is kept, so an append by the caller changes the query, even to one the setter refuses. Refuted with a history; proved that appends to lists the object is built from and assignments to it or to the query of a request are the only way to change it."
  },
  {
   "property": "C70",
   "status": "partial",
   "theorems": [
    "C70_same_request_partial",
    "C70_dataset_refuted",
    "C70_snql_partial",
    "C70_settings",
    "C70_metrics_partial"
   ],
   "note": "False for the dataset and the storage of a delete request, which are not sent: refuted. Proved for everything else, with the payload free of NaN, infinities and surrogate halves (C61 is false for those); queries compared under the conditions of C63 (SnQL) and C43/C44 (MQL)."
  },
  {
   "property": "C71",
   "status": "partial",
   "theorems": [
    "C71_timeseries_partial",
    "C71_formula_partial",
    "C71_determined_partial",
    "C71_unchanged_partial",
    "C71_value_refuted",
    "C71_null_refuted",
    "C71_unreadable_refuted"
   ],
   "note": "False of the code. Refuted: 5 and '5' become the same filter, a column on the right becomes a string, (k IS NULL OR b = x) is read as (k = 'OR' AND b = x), and null tests, empty lists, dates, tags[k] and functions on the left give text that parse_mql refuses. Proved for tests of plain tags of any nesting and for formulas of any depth: exactly what arrives (SpecArrive), that it is determined, and that the filters that arrive unchanged are exactly those of C43. Missing: what arrives for values outside SpecArrive, where the text is not readable or runs into the next test."
  },
  {
   "property": "C72",
   "status": "proved",
   "theorems": [
    "C72_strings",
    "C72_distinct"
   ],
   "note": ""
  },
  {
   "property": "C73",
   "status": "partial",
   "theorems": [
    "C73_names_partial",
    "C73_metric_refuted",
    "C73_aggregate_refuted",
    "C73_formula_refuted"
   ],
   "note": "False of the code: metric names, aggregates, function names and aggregate parameters of a Formula are validated as strings only and written without quotes, so each of them can add another metric to the query. Refuted with a witness for each; proved for names of the documented form with arbitrary strings everywhere else."
  },
  {
   "property": "C74",
   "status": "proved",
   "theorems": [
    "C74_sets",
    "C74_refuses",
    "C74_history",
    "C74_order"
   ],
   "note": ""
  },
  {
   "property": "C75",
   "status": "partial",
   "theorems": [
    "C75_same_text_partial",
    "C75_same_print_partial",
    "C75_plain_partial",
    "C75_bool_refuted",
    "C75_alias_refuted"
   ],
   "note": "False of the code: True == 1 and CurriedFunction.__eq__ ignores the alias, so equal queries can send different texts. Refuted with a witness for each; proved when values of the two queries that are equal look the same (same type, same alias), in particular without booleans, floats, samples and curried functions."
  },
  {
   "property": "C76",
   "status": "partial",
   "theorems": [
    "C76_same_mql_partial",
    "C76_same_context_partial",
    "C76_same_result_partial",
    "C76_bool_refuted",
    "C76_zone_refuted",
    "C76_limit_refuted",
    "C76_order_refuted"
   ],
   "note": "False of the code: 1 == True and equal times in different zones are written differently. Refuted with a witness for a filter value, a start time, a limit and the order of the indexer mappings; proved when equal values of the two queries look the same (the mql_context: are the same), with aggregate parameters of Formulas that are strings, numbers, booleans or None."
  },
  {
   "property": "C77",
   "status": "partial",
   "theorems": [
    "C77_query_partial",
    "C77_no_subquery",
    "C77_required",
    "C77_metrics",
    "C77_alias_refuted",
    "C77_group_refuted"
   ],
   "note": "False of the code for subqueries, whose functions are found by an alias that == ignores, and for Formulas grouped by functions: refuted. Proved for queries whose equal inner functions have the same alias, in particular without subquery, for required columns, and for metrics queries whose group-bys are columns, as their type says."
  },
  {
   "property": "C78",
   "status": "proved",
   "theorems": [
    "C78_validate",
    "C78_text",
    "C78_refused"
   ],
   "note": ""
  },
  {
   "property": "C79",
   "status": "partial",
   "theorems": [
    "C79_print",
    "C79_valid",
    "C79_one",
    "C79_serialize_partial",
    "C79_serialize_refuted"
   ],
   "note": "Proved for print(), validate() and the required columns. False of the code for serialize(): an OR of comparisons is merged into an IN when the left sides are equal, which strings on the left decide: refuted. Proved for serialize() when the strings that differ are not on the left of a comparison in a condition that is merged before or after."
  },
  {
   "property": "C80",
   "status": "partial",
   "theorems": [
    "C80_query",
    "C80_text_partial",
    "C80_valid",
    "C80_sent_partial",
    "C80_totals_refuted",
    "C80_datetime_refuted",
    "C80_settings_refuted"
   ],
   "note": "False of the code in three ways, each refuted with a body: totals without grouping (validate raises), a datetime whose UTC lies outside the years 1 to 9999 (serialize raises OverflowError), and settings of a wrong type. Proved: the query is one built with the API with clauses of the right types; the request is valid exactly if there are no totals without grouping and the settings are fine; it is then sent unless the body holds such a datetime."
  },
  {
   "property": "C81",
   "status": "partial",
   "theorems": [
    "C81_shape_partial",
    "C81_entity_partial",
    "C81_every_partial",
    "C81_shape_refuted",
    "C81_reached_partial",
    "C81_entity_refuted"
   ],
   "note": "False of the code: malformed bodies raise ValueError, IndexError, TypeError, KeyError, AttributeError or UnboundLocalError, and a refused entity or sampling rate raises InvalidEntityError: refuted. Proved for bodies of the expected shape (lists with their items in place, operators in capitals, readable dates), whatever names, operands and numbers they hold; and for every body whatsoever, that no exception outside the list legacy_errors is raised (C81_every_partial), given that int() and float() raise only ValueError, TypeError or OverflowError. Each exception of that list is reached (C81_reached_partial)."
  },
  {
   "property": "C82",
   "status": "proved",
   "theorems": [
    "C82_built",
    "C82_parentheses",
    "C82_nested",
    "C82_operator",
    "C82_precedence",
    "C82_minus",
    "C82_call",
    "C82_filter",
    "C82_space_needed",
    "C82_parentheses_needed"
   ],
   "note": ""
  },
  {
   "property": "C83",
   "status": "proved",
   "theorems": [
    "C83_answers",
    "C83_made_once",
    "C83_serialize",
    "C83_requests",
    "C83_objects",
    "C83_copies",
    "C83_no_waiting",
    "C83_bounded"
   ],
   "note": ""
  },
  {
   "property": "C84",
   "status": "partial",
   "theorems": [
    "C84_other_attributes_partial",
    "C84_other_attributes_kept_partial",
    "C84_quiet_partial",
    "C84_lost_refuted",
    "C84_mixed_refuted",
    "C84_refuted"
   ],
   "note": "False of the code for the attribute query: an assignment between the accesses of a serialize() in another thread is overwritten with the old query, or gets the filters of the old query: both refuted with schedules. Proved for all other attributes, under every schedule, and for the query when no call is under way at the time of the assignment."
  },
  {
   "property": "C85",
   "status": "partial",
   "theorems": [
    "C85_around_mris_partial",
    "C85_no_at_partial",
    "C85_refuted"
   ],
   "note": "False of the code for unquoted metric identifiers: the white space after one, up to the next bracket or comma, becomes a part of the identifier (refuted with sum(d:a/b@c )). Proved, for accepted and refused texts, when the stretches with an at sign outside quotes and backticks are left alone, and for all texts without an at sign."
  },
  {
   "property": "C86",
   "status": "proved",
   "theorems": [
    "C86_combine",
    "C86_drop_clause",
    "C86_more_filters"
   ],
   "note": ""
  },
  {
   "property": "C87",
   "status": "partial",
   "theorems": [
    "C87_use_partial",
    "C87_select_partial",
    "C87_alias_refuted",
    "C87_aliased_refuted"
   ],
   "note": "False of the code: the alias of an AliasedExpression is not known to the outer query (InvalidMatchError), and a function alias such as count() is no column name: both refuted. Proved for the names of columns and the aliases of functions that are column names, in all clauses and at every nesting depth."
  },
  {
   "property": "C88",
   "status": "proved",
   "theorems": [
    "C88_columns",
    "C88_validate",
    "C88_required"
   ],
   "note": ""
  },
  {
   "property": "C89",
   "status": "proved",
   "theorems": [
    "C89_keys",
    "C89_unknown"
   ],
   "note": ""
  },
  {
   "property": "C90",
   "status": "partial",
   "theorems": [
    "C90_none_partial",
    "C90_none_refuted"
   ],
   "note": "False of the code for aggregations, selected_columns, groupby, conditions and having, where None raises TypeError: refuted for each of them. Proved for the other 19 keys, all together."
  },
  {
   "property": "C91",
   "status": "partial",
   "theorems": [
    "C91_exchange_partial",
    "C91_groupby_refuted",
    "C91_orderby_refuted",
    "C91_condition_refuted"
   ],
   "note": "False of the code: groupby as a tuple is one expression, so that a tuple of two columns silently becomes a function; a tuple in orderby raises UnboundLocalError; a tuple on the left-hand side of a condition is refused: all refuted. Proved for the outer sequences of the other list keys and their items, conditions and alternatives, right-hand sides and ids at any depth, items of groupby, and limitby."
  },
  {
   "property": "C92",
   "status": "partial",
   "theorems": [
    "C92_conditions_partial",
    "C92_bounds_partial",
    "C92_never_refuted",
    "C92_text_refuted",
    "C92_bound_refuted"
   ],
   "note": "False for datetimes with a UTC offset and microseconds: no text at all is read as such a datetime (C92_never_refuted), the text stays a text in conditions (C92_text_refuted) and is refused as a bound (C92_bound_refuted). Proved for all other datetimes, whatever their offset (C92_conditions_partial, C92_bounds_partial)."
  },
  {
   "property": "C93",
   "status": "proved",
   "theorems": [
    "C93_keeps",
    "C93_distinct",
    "C93_again",
    "C93_metrics"
   ],
   "note": ""
  },
  {
   "property": "C94",
   "status": "proved",
   "theorems": [
    "C94_isolated",
    "C94_sdk_calls"
   ],
   "note": ""
  },
  {
   "property": "C95",
   "status": "partial",
   "theorems": [
    "C95_sent_before_refuted",
    "C95_asking_partial",
    "C95_building_partial"
   ],
   "note": "False when serialize() merges the filters: it gives the metrics query a copy of its Timeseries or Formula, and changes to the original or its filters are lost. Proved for programs that never change a Timeseries that is the query of a metrics query nor anything in the filters of such a query."
  },
  {
   "property": "C96",
   "status": "partial",
   "theorems": [
    "C96_payload_refuted",
    "C96_entries_partial"
   ],
   "note": "False for tenant_ids (the dictionary of the request itself) and for the column conditions of a delete query. Proved: nothing else of any object can be reached through an answer."
  },
  {
   "property": "C97",
   "status": "proved",
   "theorems": [
    "C97_values",
    "C97_print"
   ],
   "note": ""
  },
  {
   "property": "C98",
   "status": "partial",
   "theorems": [
    "C98_hashable_partial",
    "C98_hashable_refuted",
    "C98_equal_partial",
    "C98_equal_functions_partial",
    "C98_equal_refuted",
    "C98_sets_partial",
    "C98_sets_functions_partial",
    "C98_transitive_partial",
    "C98_transitive_functions_partial",
    "C98_groupby"
   ],
   "note": "As stated false: a function or condition that holds a list has no hash (C98_hashable_refuted), and equal CurriedFunctions with different aliases have different hashes (C98_equal_refuted); equality is not transitive either (C11_eq_transitive_refuted). Proved: exactly which objects have a hash; equal objects with the same function aliases, or without CurriedFunctions, have the same hash, are found in sets, and equality between them (holding no dictionary) is transitive."
  },
  {
   "property": "C99",
   "status": "proved",
   "theorems": [
    "C99_never_changes",
    "C99_made"
   ],
   "note": ""
  },
  {
   "property": "C100",
   "status": "partial",
   "theorems": [
    "C100_kept_partial",
    "C100_values_partial",
    "C100_unreached_partial",
    "C100_refused",
    "C100_refuted"
   ],
   "note": "False of the code: lists are kept, not copied, so a change of the list of parameters changes the function and its text, and nothing is validated again (C100_refuted). Proved for every object as long as no list is changed that it reaches, and so for all programs that change no list."
  },
  {
   "property": "C101",
   "status": "proved",
   "theorems": [
    "C101_changed",
    "C101_anew",
    "C101_seen"
   ],
   "note": ""
  },
  {
   "property": "C102",
   "status": "proved",
   "theorems": [
    "C102_request",
    "C102_print",
    "C102_one",
    "C102_serialize"
   ],
   "note": ""
  },
  {
   "property": "C103",
   "status": "partial",
   "theorems": [
    "C103_valid_partial",
    "C103_payload_partial",
    "C103_serialize_partial",
    "C103_print_partial",
    "C103_flags_refuted",
    "C103_tenants_refuted",
    "C103_order_refuted",
    "C103_delete_refuted"
   ],
   "note": "False as stated, shown by C103_flags_refuted (True and 1 are equal, only one is a valid flag), C103_tenants_refuted (1 and True are written differently), C103_order_refuted (equal dictionaries are written in the order of their keys) and C103_delete_refuted (equal delete queries, different exceptions). Proved: with flags of one type and queries alike in the sense of C75 to C77, both are valid or neither is, and the payloads have the same keys and the same or equal values, equal only for tenant_ids and delete columns; with the same tenants and columns serialize() and print() give the same texts; print() gives the same text also when their entries are reordered, at any depth."
  },
  {
   "property": "C104",
   "status": "proved",
   "theorems": [
    "C104_delete_reads",
    "C104_one_value",
    "C104_delete_determined",
    "C104_one_line",
    "C104_entity",
    "C104_storage"
   ],
   "note": "Strings, integers, booleans, None, lists, tuples and dictionaries with string keys; what repr() does on other values is left open. For entities and storages floats are compared by their own repr(), assumed free of quotes."
  },
  {
   "property": "C105",
   "status": "partial",
   "theorems": [
    "C105_members",
    "C105_read_partial",
    "C105_one_meaning",
    "C105_server_partial",
    "C105_read_refuted",
    "C105_metrics_partial",
    "C105_metrics_filters_partial"
   ],
   "note": "False as stated: f(1) = 5 OR f(TRUE) = 6 is sent as f(1) IN array(5, 6) (C105_read_refuted). Proved, for every row in which IN means equal to one of, when left-hand sides of one OR that are equal in Python are the same or hold no booleans, floats or function aliases (merges_exactly), names hold no SnQL punctuation (C63) and payloads no NaN, infinities or surrogate halves (C61); for metrics queries under the conditions of C43 and C44."
  },
  {
   "property": "C106",
   "status": "partial",
   "theorems": [
    "C106_rows_partial",
    "C106_one_meaning",
    "C106_rows_refuted"
   ],
   "note": "False as stated: an empty OR list, which asks for no row, is left out (C106_rows_refuted). Proved for all other bodies under the conditions of C105: equal left-hand sides of one OR are the same or without booleans, floats or function aliases, names without SnQL punctuation, no NaN, infinities or surrogate halves in the payload."
  },
  {
   "property": "C107",
   "status": "partial",
   "theorems": [
    "C107_clause",
    "C107_keeps",
    "C107_setter",
    "C107_narrows",
    "C107_order",
    "C107_added_partial",
    "C107_added_refuted"
   ],
   "note": "False as stated for ORs of = with left-hand sides that are equal in Python but not the same, and contain booleans, floats or function aliases: the merged OR is another condition (C107_added_refuted); proved for all others. Locality, narrowing, order and repetition are proved without that restriction. Names without SnQL punctuation, as in C63."
  },
  {
   "property": "C108",
   "status": "partial",
   "theorems": [
    "C108_setter",
    "C108_read_partial",
    "C108_added_partial",
    "C108_order_partial"
   ],
   "note": "Setters: proved for all queries. The filters as read: missing are the values that do not survive printing and parsing, for which the claim is false (C71), and filters of a Formula given in a tuple."
  },
  {
   "property": "C109",
   "status": "partial",
   "theorems": [
    "C109_subquery_partial",
    "C109_sends",
    "C109_same_text",
    "C109_subquery_refuted"
   ],
   "note": "False as stated: f(1) = 5 OR f(TRUE) = 6 is merged into f(1) IN (5, 6) on its own but not inside a subquery (C109_subquery_refuted). Proved when left-hand sides of one OR that are equal in Python are the same or hold no booleans, floats or function aliases, and without that restriction when there is no OR to merge (C109_same_text). Names without SnQL punctuation, as in C63."
  },
  {
   "property": "C110",
   "status": "proved",
   "theorems": [
    "C110_rows",
    "C110_bounded",
    "C110_narrows"
   ],
   "note": "A row is a function from column names to null, an integer or a text. The values are those of the annotation Dict[str, List[Union[str, int]]]. The storage is not part of the body and so not part of the statement."
  },
  {
   "property": "C111",
   "status": "proved",
   "theorems": [
    "C111_first",
    "C111_written",
    "C111_print"
   ],
   "note": "Nothing is claimed for scopes and mappings of another class (asdict accepts any dataclass) and for bytes as the query, where the model simplifies."
  }
 ]
}