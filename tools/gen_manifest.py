#!/usr/bin/env python3
"""Write MANIFEST.json from the theorem names in rocq/theories/Properties*.v and NOTES below.

A property is "partial" when one of its theorems ends in _partial or _refuted."""
import glob, json, os, re

ROOT = os.path.dirname(os.path.dirname(os.path.abspath(__file__)))
NOTES = {
    "C02": "False of the code for names ending in a newline (Column('a[b]\\n') gets key 'b]\\n'): refuted with that witness; proved for all other names.",
    "C03": "False of the code: Column('tags[k]', entity) is looked up as 'tags[k]' in the schema, because the subscriptable attribute is set after the check. Refuted; the exact behaviour is proved.",
    "C07": "Bounds proved exactly. LimitBy with count True prints 'True BY': refuted for bool counts, proved for ints.",
    "C16": "False of the code: sample nan and inf are accepted and printed as 'nan'/'inf', and a positive sample up to 5e-7 prints as 0.000000. Refuted with these witnesses; proved (nearest decimal, positive) for every finite positive sample, and that every sample <= 0 is refused.",
    "C21": "False as stated: the key of a subscripted column may contain a newline (Column('a[x\\ny]')), which is printed raw. Refuted with that witness; proved when no name contains a newline.",
    "C24": "False of the code: Query.set_match refuses a Storage that the constructor accepts. Refuted; proved for every other match value.",
    "C26": "The last part is false of the code: an AliasedExpression selected by a subquery cannot be referenced by its alias. Refuted; the rest is proved.",
    "C28": "False of the code: Column('tags[k]', entity) whose data model lists 'tags[k]' but not 'tags' can be built but validate() fails. Refuted; proved with the exact extra condition on such columns.",
    "C29": "False of the code: the column finder does not look into lists and tuples. Refuted with a join query printing an unqualified column inside an array.",
    "C34": "False of the code: the optimizer merges left-hand sides that are equal in Python but print differently (f(1) and f(TRUE)). Refuted; proved for interpretations that respect Python equality, and for every interpretation when the left-hand sides of one OR that are equal in Python are the same, or hold no booleans, floats or function aliases (merges_exactly).",
    "C36": "The truth of WHERE may change as in C34. Refuted; proved that only WHERE changes, and that its truth is kept under the conditions of C34.",
    "C37": "False of the code: a falsy granularity (0) passes the check 'if self.granularity and ...' and is serialized. Refuted; exact acceptance proved with falsy values added.",
    "C39": "Names and parameter types are checked at the root only: refuted with an inner formula without name and with a str parameter. The rest (Timeseries occurs, group-bys agree, root checks) is proved exactly at any depth for trees with fields of the annotated types.",
    "C41": "False of the code: the parser only unescapes the double quote, so backslash and newline do not survive. Refuted; proved that exactly the strings without these two characters survive.",
    "C42": "False of the code: all operators that are not negations print alike (>, <, =, IN, LIKE, ...). Refuted; proved that negation survives and a function on the right is refused.",
    "C47": "False of the code: indexer_mappings may be missing for validate() but not for serialize(), and a function on the right of a filter is refused when printing. Refuted twice; proved that these and the values SnQL printing refuses are the only causes (for Timeseries and Formula queries), and that a validated query given as MQL text always serializes once it has indexer_mappings.",
    "C49": "False of the code: serialize() stores the optimized query in the object. Refuted; proved that only root filters change, that they keep their meaning, and that print() afterwards shows what serialize() returned.",
    "C55": "False of the code in two corners: an empty OR list disappears from WHERE (false becomes true), and an OR list of one condition is refused in having although conditions accepts it. Refuted with witnesses; structure, order and truth of WHERE (no empty OR) and of HAVING proved for all bodies.",
    "C56": "False of the code: operators are recognised in any case but converted only in the SDK's spelling. Refuted with 'in'; proved exactly which conditions convert, and that column/operator/value triples in the SDK's spelling always do.",
    "C57": "False of the code: a descending order on a function ([['-f', ...]]) is rewritten in place, so the second conversion sorts ascending. Refuted for every such body; proved that without one the body and the second result are unchanged.",
    "C58": "False of the code: other texts (2021-1-1T1:1:1, lower-case t, a space before a one-digit day, Z) are read as datetimes too. Refuted; proved that all promised texts are read correctly and every other text is unchanged or has the exact lenient form and denotes that real datetime.",
    "C59": "False of the code: organization/project given as a string or as 0 (or an empty list) are dropped without an error. Refuted; proved for ints, bools, lists, tuples and dates, with the exact list of conditions.",
    "C60": "Plain names are exact. Functions inside an array or tuple parameter are not seen: refuted; proved exactly for functions nested as parameters of parameters.",
    "C61": "False of the code for NaN and the infinities (the text is not JSON), for lone surrogates (two requests, one text) and for values json.dumps refuses (TypeError on a valid request). Refuted with witnesses; proved against an unambiguous relational JSON grammar for all other payloads, with the exact set of payloads that can be sent.",
    "C62": "False of the code in one corner: an order item that is neither a text nor a list (a tuple, say) silently repeats the order before it. Refuted with that witness; the exact request is proved for all bodies, and that every such body is converted when its conditions are sequences.",
    "C63": "False of the code for columns named like literals (Column(\"NULL\") prints like None), functions without parameters and names with punctuation (a function may be called \"ff(a), gg\"). Refuted with witnesses. Proved for all other queries, via a tree grammar of SnQL shown unambiguous and a relation saying which tree a query stands for.",
    "C64": "The result type, validation and printability are proved for every text. False of the code for the exceptions: AssertionError for a query that is a bare literal, InvalidColumnError for a column starting with a digit or a dot. Refuted with witnesses; proved that there are no others and that each needs such characters in the text.",
    "C65": "False of the code: backslashes are doubled, empty parameter lists disappear, filters of a negation move to its operand, functions named like operators and string parameters are rewritten, backticks are dropped. Refuted with witnesses; proved for every parsed query without these exceptions.",
    "C66": "False of the code in two ways, refuted with witnesses: a curried call whose first argument is a bare metric silently drops its other arguments, and a bare metric gets the aggregate AGGREGATE_PLACEHOLDER, which the text does not contain. Proved for every accepted text apart from these two: the declarative grammar of SpecGrammar reads the text as the query returned.",
    "C67": "Constructors and setters are proved for all argument values, except Rollup, which compares an empty text or collection given as granularity with the interval (TypeError): refuted, and proved to be the only such case. validate() is false for fields of other types than annotated (an int as limit, a condition instead of a list, a formula grouped by a number, a text as the query of a request): refuted with witnesses, proved for fields of the annotated types.",
    "C69": "False of the code: the list passed to a setter is kept, so an append by the caller changes the query, even to one the setter refuses. Refuted with a history; proved that appends to lists the object is built from and assignments to it or to the query of a request are the only way to change it.",
    "C70": "False for the dataset and the storage of a delete request, which are not sent: refuted. Proved for everything else, with the payload free of NaN, infinities and surrogate halves (C61 is false for those); queries compared under the conditions of C63 (SnQL) and C43/C44 (MQL).",
    "C71": "False of the code. Refuted: 5 and '5' become the same filter, a column on the right becomes a string, (k IS NULL OR b = x) is read as (k = 'OR' AND b = x), and null tests, empty lists, dates, tags[k] and functions on the left give text that parse_mql refuses. Proved for tests of plain tags of any nesting and for formulas of any depth: exactly what arrives (SpecArrive), that it is determined, and that the filters that arrive unchanged are exactly those of C43. Missing: what arrives for values outside SpecArrive, where the text is not readable or runs into the next test.",
    "C73": "False of the code: metric names, aggregates, function names and aggregate parameters of a Formula are validated as strings only and written without quotes, so each of them can add another metric to the query. Refuted with a witness for each; proved for names of the documented form with arbitrary strings everywhere else.",
    "C75": "False of the code: True == 1 and CurriedFunction.__eq__ ignores the alias, so equal queries can send different texts. Refuted with a witness for each; proved when values of the two queries that are equal look the same (same type, same alias), in particular without booleans, floats, samples and curried functions.",
    "C76": "False of the code: 1 == True and equal times in different zones are written differently. Refuted with a witness for a filter value, a start time, a limit and the order of the indexer mappings; proved when equal values of the two queries look the same (the mql_context: are the same), with aggregate parameters of Formulas that are strings, numbers, booleans or None.",
    "C77": "False of the code for subqueries, whose functions are found by an alias that == ignores, and for Formulas grouped by functions: refuted. Proved for queries whose equal inner functions have the same alias, in particular without subquery, for required columns, and for metrics queries whose group-bys are columns, as their type says.",
    "C79": "Proved for print(), validate() and the required columns. False of the code for serialize(): an OR of comparisons is merged into an IN when the left sides are equal, which strings on the left decide: refuted. Proved for serialize() when the strings that differ are not on the left of a comparison in a condition that is merged before or after.",
    "C80": "False of the code in three ways, each refuted with a body: totals without grouping (validate raises), a datetime whose UTC lies outside the years 1 to 9999 (serialize raises OverflowError), and settings of a wrong type. Proved: the query is one built with the API with clauses of the right types; the request is valid exactly if there are no totals without grouping and the settings are fine; it is then sent unless the body holds such a datetime.",
    "C81": "False of the code: malformed bodies raise ValueError, IndexError, TypeError, KeyError, AttributeError or UnboundLocalError, and a refused entity or sampling rate raises InvalidEntityError: refuted. Proved for bodies of the expected shape (lists with their items in place, operators in capitals, readable dates), whatever names, operands and numbers they hold; and for every body whatsoever, that no exception outside the list legacy_errors is raised (C81_every_partial), given that int() and float() raise only ValueError, TypeError or OverflowError. Each exception of that list is reached (C81_reached_partial).",
    "C84": "False of the code for the attribute query: an assignment between the accesses of a serialize() in another thread is overwritten with the old query, or gets the filters of the old query: both refuted with schedules. Proved for all other attributes, under every schedule, and for the query when no call is under way at the time of the assignment.",
    "C85": "False of the code for unquoted metric identifiers: the white space after one, up to the next bracket or comma, becomes a part of the identifier (refuted with sum(d:a/b@c )). Proved, for accepted and refused texts, when the stretches with an at sign outside quotes and backticks are left alone, and for all texts without an at sign.",
    "C87": "False of the code: the alias of an AliasedExpression is not known to the outer query (InvalidMatchError), and a function alias such as count() is no column name: both refuted. Proved for the names of columns and the aliases of functions that are column names, in all clauses and at every nesting depth.",
    "C90": "False of the code for aggregations, selected_columns, groupby, conditions and having, where None raises TypeError: refuted for each of them. Proved for the other 19 keys, all together.",
    "C91": "False of the code: groupby as a tuple is one expression, so that a tuple of two columns silently becomes a function; a tuple in orderby raises UnboundLocalError; a tuple on the left-hand side of a condition is refused: all refuted. Proved for the outer sequences of the other list keys and their items, conditions and alternatives, right-hand sides and ids at any depth, items of groupby, and limitby.",
    "C92": "False for datetimes with a UTC offset and microseconds: no text at all is read as such a datetime (C92_never_refuted), the text stays a text in conditions (C92_text_refuted) and is refused as a bound (C92_bound_refuted). Proved for all other datetimes, whatever their offset (C92_conditions_partial, C92_bounds_partial).",
    "C95": "False when serialize() merges the filters: it gives the metrics query a copy of its Timeseries or Formula, and changes to the original or its filters are lost. Proved for programs that never change a Timeseries that is the query of a metrics query nor anything in the filters of such a query.",
    "C96": "False for tenant_ids (the dictionary of the request itself) and for the column conditions of a delete query. Proved: nothing else of any object can be reached through an answer.",
    "C98": "As stated false: a function or condition that holds a list has no hash (C98_hashable_refuted), and equal CurriedFunctions with different aliases have different hashes (C98_equal_refuted); equality is not transitive either (C11_eq_transitive_refuted). Proved: exactly which objects have a hash; equal objects with the same function aliases, or without CurriedFunctions, have the same hash, are found in sets, and equality between them (holding no dictionary) is transitive.",
    "C100": "False of the code: lists are kept, not copied, so a change of the list of parameters changes the function and its text, and nothing is validated again (C100_refuted). Proved for every object as long as no list is changed that it reaches, and so for all programs that change no list.",
    "C103": "False as stated, shown by C103_flags_refuted (True and 1 are equal, only one is a valid flag), C103_tenants_refuted (1 and True are written differently), C103_order_refuted (equal dictionaries are written in the order of their keys) and C103_delete_refuted (equal delete queries, different exceptions). Proved: with flags of one type and queries alike in the sense of C75 to C77, both are valid or neither is, and the payloads have the same keys and the same or equal values, equal only for tenant_ids and delete columns; with the same tenants and columns serialize() and print() give the same texts; print() gives the same text also when their entries are reordered, at any depth.",
    "C104": "Strings, integers, booleans, None, lists, tuples and dictionaries with string keys; what repr() does on other values is left open. For entities and storages floats are compared by their own repr(), assumed free of quotes.",
    "C105": "False as stated: f(1) = 5 OR f(TRUE) = 6 is sent as f(1) IN array(5, 6) (C105_read_refuted). Proved, for every row in which IN means equal to one of, when left-hand sides of one OR that are equal in Python are the same or hold no booleans, floats or function aliases (merges_exactly), names hold no SnQL punctuation (C63) and payloads no NaN, infinities or surrogate halves (C61); for metrics queries under the conditions of C43 and C44.",
    "C106": "False as stated: an empty OR list, which asks for no row, is left out (C106_rows_refuted). Proved for all other bodies under the conditions of C105: equal left-hand sides of one OR are the same or without booleans, floats or function aliases, names without SnQL punctuation, no NaN, infinities or surrogate halves in the payload.",
    "C107": "False as stated for ORs of = with left-hand sides that are equal in Python but not the same, and contain booleans, floats or function aliases: the merged OR is another condition (C107_added_refuted); proved for all others. Locality, narrowing, order and repetition are proved without that restriction. Names without SnQL punctuation, as in C63.",
    "C108": "Setters: proved for all queries. The filters as read: missing are the values that do not survive printing and parsing, for which the claim is false (C71), and filters of a Formula given in a tuple.",
    "C109": "False as stated: f(1) = 5 OR f(TRUE) = 6 is merged into f(1) IN (5, 6) on its own but not inside a subquery (C109_subquery_refuted). Proved when left-hand sides of one OR that are equal in Python are the same or hold no booleans, floats or function aliases, and without that restriction when there is no OR to merge (C109_same_text). Names without SnQL punctuation, as in C63.",
    "C110": "A row is a function from column names to null, an integer or a text. The values are those of the annotation Dict[str, List[Union[str, int]]]. The storage is not part of the body and so not part of the statement.",
    "C111": "Nothing is claimed for scopes and mappings of another class (asdict accepts any dataclass) and for bytes as the query, where the model simplifies.",
    "C11": "False for two objects of class Function (generated __eq__ compares the alias), for transitivity and for hashing: refuted with witnesses. Proved when at least one side is a CurriedFunction.",
}


def main():
    names = {}
    for f in sorted(glob.glob(os.path.join(ROOT, "rocq/theories/Properties*.v"))):
        for m in re.finditer(r"^Theorem (C\d+)(\w*)", open(f).read(), re.M):
            names.setdefault(m.group(1), []).append(m.group(1) + m.group(2))
    claims = []
    for line in open(os.path.join(ROOT, "properties.jsonl")):
        pid = json.loads(line)["id"]
        ths = names.get(pid, [])
        if not ths:
            claims.append({"property": pid, "status": "partial", "theorems": [],
                           "note": "not proved yet"})
            continue
        part = any(t.endswith(("_partial", "_refuted")) for t in ths)
        claims.append({"property": pid, "status": "partial" if part else "proved",
                       "theorems": ths, "note": NOTES.get(pid, "")})
    json.dump({"claims": claims}, open(os.path.join(ROOT, "MANIFEST.json"), "w"), indent=1)


main()
