# Formal model of ics-py in Rocq: design

Source under study: /repo (ics-py at the pinned commit), read as text only.
Everything lives in `rocq/theories` (logical name `Verif`), plain Coq 8.16.1
with the standard library only.

## Layout

| kind | files | content |
|---|---|---|
| model | `M_*.v` | shallow functional model, function by function, exceptions as values, citations to /repo lines; no proofs |
| specification | `S_*.v` | small independent specifications (grammars, interval sets, sortedness, calendar dates, field maps ...) |
| proofs | `P_*.v` | lemmas; `P_*Ex.v` worked examples |
| properties | `C_*.v` | one theorem per claim, closed by `exact`, with an `Example` showing a non-trivial instance, and `Print Assumptions` |

Conventions: a Python `str` is a `list N` of code points; an exception is
`Err e` with `e` naming the Python exception class; a generator is the list of
items it yields plus the exception (if any) that ends it; a Python `dict` is an
association list in insertion order with unique keys; `timedelta` is a `Z` of
microseconds; a `datetime` is (wall clock in microseconds, tzinfo, fold), where
tzinfo is an arbitrary object with an arbitrary offset function.
Loops over indices use fuel only where the Python loop is not structural, and
the theorems show that the fuel given is always enough.

A claim that is false of the code is kept in full in `properties.jsonl`; for it
we prove `..._refuted` (a witness computed by the model, or a universally
quantified failure) and the strongest guarded version. Theorems suffixed
`_partial` say in a comment what is missing (there is none at the moment).

External calls (urlparse, float, the zone database, the local zone, the clock,
the choice of word boundaries) are functions over which the theorems quantify:
the record `ext` of `M_Comp` and the records `env` (`M_Time`) and `zone_db`
(`M_Dt`). What a theorem needs to know of them is a premise of that theorem.

## What is modelled, and how each property is proved

| id | files | what is modelled | how it is proved |
|---|---|---|---|
| C01-C03 | Text | `TextConverter` (valuetype/text.py) and `next_after_str_escape` (utils) | structural induction on strings; independent grammar of escaped text |
| C04-C06 | Line | `escape_param`, `unescape_param`, `ContentLine._serialize_iter_unwrapped`, `ContentLineParser` with its indices and delimiter iterator (contentline/container.py, parser.py) | invariant relating the index state to the remaining suffix; fuel sufficiency; grammar of lines |
| C07-C09 | Fold | `TextWrapper._wrap_chunks/_handle_long_word` in the configuration used, for every chunk splitter; `string_to_lines`, `unfold_lines` | loop invariants; inductive definition of "folding of" |
| C10, C11 | Tree | `Container.serialize_iter`, `from_tokenized`, `string_to_containers` | induction on trees and on line sequences |
| C12-C14, C40, C41 | Codec | duration, UTC offset, boolean, integer, binary converters | digit lemmas, arithmetic, induction by 3-byte groups |
| C15, C16, C47 | Cal, Dt, Period | `strftime`/`strptime` for the formats used, `_serialize_dt`, `_parse_dt`, TIME and PERIOD, civil calendar | digit lemmas and calendar arithmetic |
| C17-C22, C48 | Time, Span, Event | datetime arithmetic and comparison of CPython, `Timespan`, `EventTimespan`, `TodoTimespan`, the setters of `CalendarEntryAttrs` | transition system, invariant by induction on histories |
| C23-C25 | Cmp | interval predicates and the order of spans and entries | arithmetic; witnesses for refutations |
| C26-C28 | Heap, Timeline | `heapq` (the Python algorithm), `Timeline` | heap invariant on arrays, permutation, sortedness |
| C29, C30 | Zone | `Timezone._find_observance*`, `utcoffset`, `lru_cache(10)` as a state machine keyed by datetime equality | induction over observances and over histories |
| C31 | Comp, Keep | the populate and serialize engine (converter/component.py, base.py, value.py, types/*.py) with the attributes of all classes | frame lemmas, induction over item lists |
| C32 | Comp, Multi, Cat | multi-valued lines: `extra_params` lists and the `__merge_next` bookkeeping | invariant of the reading loop, induction over values |
| C33 | Comp, SpanRt, Store | `TimespanConverter` | composition of codecs |
| C34 | Open, Serial | `one`, `Calendar.__init__`, `parse_multiple` on generators of containers | case analysis and induction |
| C35 | Cont, Clone | `Container.clone`, `ContentLine.clone` on a store of objects; construction, assignment, reading and cloning of components, shared list objects | invariants over all reachable components; freshness of locations |
| C36 | Cont | the list methods of `Container` | invariant over histories |
| C37 | Scope | programs with nested scopes, exceptions, and threads | induction on programs and interleavings |
| C38 | Attr | class table with the cached attribute dict | invariant, witness |
| C39 | Norm | `Normalization.normalize`, `Calendar.normalize` | case analysis |
| C42 | Person | `PersonProperty`, `PersonMultiProperty`, `Person`, `PersonConverter` | refinement to a map of fields by induction on histories; C05 for the line |
| C43 | Ref, Calendar | zone collection while writing a calendar | invariant of the zone context over all converters |
| C44, C45 | Rt, Field, Whole, Back, Store | reading back written alarms, events and todos | each converter separately, frame conditions to put them together |
| C46 | Serial, Wire, Out, Calendar | `Calendar.serialize`, `serialize_iter`, `__iter__`, reading the text | composition with C05, C07, C10 |
| C49 | Rrule | `RecurrenceConverter`, `rrule_to_ContentLine`; a rule is its start and its text | sorting lemmas, induction over the lines |
| C50, C51 | Vtz | the attributes and converters of `Timezone` and its observances, reading (immutable components) and writing | one lemma per kind of attribute, composition; simulation for the lookups |
| C52 | Reorder, Local | the reading loop of all components | each converter sees only its own part of the state (locality); exchange of neighbours; zones up to lookup |
| C53, C54 | Read, Value, ReadGen, ReadVal, ReadSpan, ReadAll | reading of all components against a declarative description (S_Read) | each converter is a fold over its own lines (frame lemmas); soundness and completeness per property kind, then for the component; determinism of the description |
| C55 | Strip, StripOut | `Component.strip_extras` with its options, and writing afterwards | writing split into per-value texts and joining; simulation between the component before and after, converter by converter |
| C56 | TzConv | `timezone/converters.py`, `is_utc`, `to_builtin` | classification of the objects (means_utc, named, local), one-observance zones answer independently of their rules, invariant of the table of zones over any list of datetimes; default names are injective |
| C57 | Decl | `converter/base.py`, `converter/value.py`, `valuetype/base.py` (registration), the declarations of the classes | induction on types, registrations, sorting and lookup; the tables of M_Comp and M_Vtz compared by computation |
| C58 | Order | `serialize_toplevel`, `_serialize_attrs` | blocks per converter, in the order of the table; exact reading (C53) for the lines that are not understood |
| C59 | Again | reading (C53) followed by writing and reading (C46) | every parsed line is well formed; the exact description of reading (C53) gives the conditions of C46, value by value; annotations from reading make the result equal |
| C60 | Merge | reading into old contents compared with reading into a new component | simulation of the two runs, item by item and converter by converter, counting what was set |
| C61 | ZoneRead | a relation between the items of a VTIMEZONE and the zone, line by line | the reading loop described by one invariant over all items; one lemma per converter; rule sets by what was collected |
| C62 | ZoneAgain | conditions on the values read (`keepable_zone`), equality of zones up to spelling of parameters | what was read (C61) meets the conditions of writing and reading (C50) |
| C63 | Origin | identifiers named anywhere in the items (`mentions`), definitions, zones of the database (`origin`); zone objects that stand for definitions (`object`) | what was read (C53, C61) says where zones come from; their definitions are kept (C62), so C59 applies |
| C64 | Show | a grammar of the texts (`span_shown`, `entry_shown`), with numbers, days and clock readings of S_Codec and S_Dt; what a text shows (`same_view`) | every part is followed by a character it cannot contain, so the parts can be cut off one by one; no text of a span has a quotation mark |
| C65 | RuleEq | the parameters of a rule by name (`parameter`), same parameters (`same_rule`), same lists (`same_set`), lines of a text | a dict made by updating one without repeated keys has none; equal length and inclusion give the same keys |
| C66 | Check | the grammar as inductive relations on texts (`declared`), with its characters listed | every production is one of the grammar of the parser (S_Line), which parses exactly that |\n
| C67 | Same | results of the same kind (`alike`), equal trees (`item_eq`), no needless quotes (`tight`) | every step of the writer respects equality of parameters (`peq`: same texts); zones are registered alike since only non-UTC zones are |
| C68 | FromUtc | observance in force at an instant (`at_instant`), zones with one standard offset (`one_standard`), onsets in order, `repeats` | the lookup of the standard time with `fold=1` finds what is in force at the instant; both readings agree unless repeated; the cache holds answers for some `fold` |
| C69 | Float | finite doubles as `m * 2 ^ E` units of `2 ^ -1074`, nearest with ties to even (`rounded`), grammar of numbers (`float_text`), six decimals (`six`, `nearest_six`) | rounding half to even at the exponent of the number is nearest among all finite doubles; below `2 ^ 33` the step of a double is under a millionth, above it six decimals determine the double |
| C70 | Repr | number of digits (`short`), distance (`not_farther`), forms of a text (`point_form`, `exponent_form`, `medium`) with `rounded`, `numeral` of C69 | a number of j digits read as the double lies next to a multiple of a power of ten that is; the set of numbers read as a double is convex; 17 digits suffice |
| C71 | Fail | the items taken so far (`sofar`), what the bad item still changes (`stopped`, `begun_most`, `left_over`), the checks at the end (`unclosed`) with the meaning of lines of S_Read | the run that returns its state is compared with the run into a new component (the relation of C60) at the item that fails; the values before a bad one form the longest prefix that can be read |
| C72 | ContQ | positions from front or back (`means`), clipped bounds and the progression start, start+step, ... (`selected`), sorted lists of positions (`lists`), items at positions (`items_at`), segments as concatenations | the arithmetic of CPython's slices (clamping, counting by division) against the progression; deletion and filtering as one lemma about keeping the positions that pass a test |
| C73 | CmpObj | the interval an object occupies (`occupies`), what each predicate says of two intervals (`says`), what each operator says given `<` (`means_op`) | by the theorems of C23 and C25 on spans, case by case over the classes |
| C74 | Assign | the arguments a tuple or dict passes (`passes`), what is wrong with them in order (`bad_arg`, `dt_made`, `td_made`), the kind of each attribute (`kinds`), what each kind takes (`taken`), construction (`made_from`) | the model's outcome satisfies each relation, and each relation has one outcome |
| C75 | Write | the text of each kind of value (`escaped`, `decimal`, `whole_seconds`, `period_text`, `clock_written`), the chosen type (`value_written`), the groups of a list (`lines_written`), span, action, members, zones (`collect`), each with its exceptions | the model's result is the related one, and there is one for all values that exist |
| C76 | SpanOps | `accepted` by what is present, the cases of TypeError, OverflowError and KeyError, `end_converted`, `in_zone`, `rezoned`, `all_day` with midnights by remainders | the model's result is exactly the related one |
| C77 | Empty | `empty_answer` and `dict_does` per operation, `clock_dropped` and `period_dropped` by the zone's answer, `read_plain` | the model's result is exactly the related one, with a dict it is the model of C12, C16 and C47 |
| C78 | Seconds | `nearest` and `even_tie` of S_Float for the seconds, `clock_text` splits that double exactly | the float computation gives the text of that double, and the integer computation of C13 and C14 agrees in the stated range |
## Trusted base

* Coq's kernel (8.16.1).
* `Print Assumptions` for each property theorem: nothing (table at the end).
* The faithfulness of the `M_*.v` files to /repo, which was established by
  reading only. Known simplifications are listed in each file header and here.
* External functions are arguments of the theorems. What a theorem needs of them is a
  premise: `utc_env` (the UTC zone counts as UTC and has offset zero), `splitter`
  (cutting a text into pieces loses nothing), `reads_dates` (dateutil's date parser
  reads the dates that are written), `text_env` (the text of an address has no comma or
  line break of its own, numbers are written without semicolon, the clock gives UTC),
  `zones_stored` (VTIMEZONE components are read back; C50 proves it for the modelled
  ones).

### Simplifications

Text and numbers
* `str.upper`, `str.isdigit`, `strptime` digits are modelled for ASCII; other code
  points are unchanged or no digits. `int` has no limit on digits.
* `float(text)` and `"%f"` (`M_Float`, C69) are those of CPython for IEEE doubles given by
  their bits: correctly rounded, ties to even, ASCII texts only. Elsewhere they are
  quantified functions.
* `str(x)` of a float (`M_Repr`, C70) is CPython's shortest repr (dtoa mode 0); the model
  computes it by trying one to seventeen digits, which is checked by the theorems, not
  taken from the C code.
* `re` patterns are replaced by hand-written recognisers given in the files.
* `%Y` is written without padding (glibc); years below 1000 are excluded in C15.
* The fractions in a UTC-OFFSET are cut off with integers in M_Codec; M_Seconds has the float computation, and C78 says where they agree.
* Python's recursion limit and memory are unbounded.
* `QuotedParamValue` is an immutable tagged string.

Time
* A tzinfo object is an identity with an offset function and a `fromutc` that never
  raise. `TzLocal` (the local zone at call time) is excluded where a theorem says
  `convertible` or `stored`.
* dateutil and pytz are not modelled. In C29 and C30 recurrence sets are onset functions
  (`rrule.before`). In C49-C51 the reader of the text of a rule and the reader of dates
  are arbitrary functions; what a theorem needs of them is a premise. The way
  `rrulestr(compatible=True)` goes through the lines is modelled after dateutil 2.8
  (`M_Rrule`) with the parameters it takes, but for TZID (dates with a zone), which is
  rejected there; line separators inside values are not modelled.
* `fromutc` of a VTIMEZONE zone (C68) is inherited from `dateutil.tz._common._tzinfo`; it is
  modelled after python-dateutil 2.8 (`_fromutc`, `is_ambiguous`, `_fold_status`; `M_FromUtc`).
* Dates in recurrence sets are wall clock readings without zone.
* The precision of a span is a string or None. Arguments of other types to setters
  (float, bool, sets, iterators) are not modelled, nor is the pickle form of the
  datetime constructor (a string of length ten as its only argument).
* The warning of `convert_timezone` is not modelled.
* `heapq` is the Python implementation; the C accelerator is taken to be equal.
* The list of observances of a zone is not changed after construction.

Containers and components
* `c.extend(c)` and arguments that iterate over the container being changed are not
  modelled; nor is direct assignment to `.data` or `.name`.
* `M_Attr`: single inheritance, no frozen or slotted classes, every field is an
  argument of the constructor.
* `M_Comp`: aliasing of parameter dicts between a component and its lines is not
  modelled (`M_Cont` and `M_Clone` have the aliasing of containers and lists);
  `in_(range)` accepting bool is not modelled; a custom alarm without action fails
  when its container is made rather than when its text is written.
* `M_Merge`: when reading into a component fails, only the error is returned; what python
  leaves in the component is modelled in `M_Fail` (C71). The state of a context that the
  caller supplies is not modelled after a failure.
* `M_Show`: `str` of datetime and timedelta as in CPython 3.11; the summary is a string or None.
* `M_RuleEq`: the other object is a rule or set (`isinstance` holds); `==` and `hash` of the
  attributes of a rule are quantified functions; the texts `repr` are not modelled.
* `M_Cmp`: the data of an event beyond span and summary is abstract.
* `M_Norm`: normalization functions do not reassign the calendar's lists.
* `x_tz_load`, `x_tz_dump` (reading and writing VTIMEZONE) are external functions
  with the contracts `zone_writer`, `zone_stored` of `S_Ref`/`S_Wire`; a reloaded
  zone is identified with the original. C50 proves the contract for zones written and
  read by the model of VTIMEZONE (`M_Vtz`).
* `M_Decl`: a class is a constant; the metadata entries `ics_converter` and `ics_type`
  do not occur in the code and are left out.
* `M_TzConv`: a tzinfo object is one of the classes the code tells apart, with the data
  it looks at (offset, name, `str()`); subclasses are not modelled. What
  `datetime.timezone` says its name is follows the standard library.
* `M_Vtz`: two attributes never answer to one name; a component is made in one go.
* `M_Person`: only values of the types None, str, ParseResult, bool and list are
  assigned; the `extra` dict given to the constructor is not shared.
* `M_Empty`: the mapping methods are those of `collections.abc.MutableMapping`; the warnings
  are not modelled; a key is a string.

### Not modelled
* The command line and the tests; `ics.utils` beyond the functions cited.
* `ics_vtimezones` (the data base of zones, three quantified functions); the
  recurrence converter outside time zones (events have no
  recurrence attribute in this version).

## Mutation testing

`seeded/LOG.jsonl` has one line per realistic bug seeded into a scratch copy of the
model: the definition edited, the edit, the claim it breaks, the theorems that no
longer prove, and the theorems tightened because of it.

## Print Assumptions of every property theorem

`Print Assumptions` was run on all 585 property theorems; for each of them Coq
answers "Closed under the global context": no axiom at all is used, neither of
ours nor of the standard library. (A checker that lists the axioms of every
*loaded* library also shows seven from `Coq.ssr.ssrunder`; that library is loaded
by the standard library's arithmetic tactics and no theorem here depends on them.)

| file | number | theorems |
|---|---|---|
| `C_Action.v` | 3 | C53_action_none, C53_action_several, C53_action_component |
| `C_Again.v` | 7 | C59_text, C59_lines, C59_container, C59_written_lines, C59_write_refuted, C59_reread_refuted, C59_end_refuted |
| `C_Assign.v` | 15 | C74_datetime, C74_timedelta, C74_assign, C74_computed, C74_computed_total, C74_unwritable, C74_add_attendee, C74_add_attendee_todo, C74_kinds, C74_outcome, C74_new, C74_new_succeeds, C74_unchecked_refuted, C74_geo_refuted, C74_letters_refuted |
| `C_Attr.v` | 5 | C38_rejected, C38_construct, C38_assign, C38_invariant, C38_shadowed_refuted |
| `C_Calendar.v` | 9 | C46_calendar, C46_exact, C46_container, C46_several, C46_iter, C46_iter_fails, C45_text, C46_clash_refuted, C46_name_refuted |
| `C_Check.v` | 9 | C66_declared, C66_written, C66_checked, C66_unchecked, C66_error, C66_check_refuted, C66_unquote, C66_unquote_error, C66_classes |
| `C_Clone.v` | 5 | C35_component, C35_component_equal_iff, C35_component_lists, C35_component_lists_refuted, C35_component_refuted |
| `C_Cmp.v` | 27 | C23_exact, C23_instant, C23_symmetric, C23_converse, C23_transitive, C23_includes_intersects, C23_steady, C23_zones_refuted, C23_todo_refuted, C23_no_begin, C23_required, C23_required_instant, C23_todo_instant_refuted, C24_intersects, C24_includes, C24_empty, C24_touching_refuted, C24_self_refuted, C25_key, C25_weak_order, C25_entry_key, C25_entries, C25_representation, C25_equal, C25_equal_entries, C25_cycle_refuted, C25_fold_refuted |
| `C_CmpObj.v` | 8 | C73_predicates, C73_instants, C73_receiver, C73_span_entry_refuted, C73_in_refuted, C73_compare_entries, C73_compare_spans, C73_mixed |
| `C_Codec.v` | 30 | C12_duration_roundtrip, C12_truncation_refuted, C12_written_grammar, C12_written_grammar_refuted, C13_grammar_meaning, C13_exact, C13_total, C13_overflow_iff, C13_value_error_refuted, C13_strict_refuted, C14_offset_roundtrip, C14_written_form, C14_parse_exact, C14_parse_errors, C14_bound_sharp, C40_bool_roundtrip, C40_bool_exact, C40_bool_errors, C40_only_true_false_refuted, C40_int_roundtrip, C40_int_written, C40_int_read, C40_int_errors, C40_int_exact, C41_binary_roundtrip, C41_binary_encoding, C41_binary_alphabet, C41_binary_ignores, C41_binary_total, C41_binary_exact |
| `C_Cont.v` | 12 | C36_history, C36_history_ok, C36_ok, C36_rejected, C36_rejected_clean, C36_extend_refuted, C36_setitem_refuted, C36_setslice_refuted, C36_poisoned_refuted, C35_container_equal, C35_container_disjoint_iff, C35_container_shared_refuted |
| `C_ContQ.v` | 21 | C72_get, C72_set, C72_delete, C72_no_such_item, C72_insert, C72_append, C72_extend_atomic_refuted, C72_reverse, C72_get_slice, C72_get_slice_nameless, C72_delete_slice, C72_set_segment, C72_set_slice, C72_step_zero, C72_get_name, C72_delete_name, C72_name_poisoned, C72_remove, C72_contains, C72_count, C72_index |
| `C_Decl.v` | 14 | C57_value, C57_special, C57_ignored, C57_unknown_class, C57_nested_lists, C57_registered, C57_unregistered, C57_bytearray_refuted, C57_sorted, C57_sorted_only, C57_lookup, C57_tables, C57_observance_table, C57_zone_table |
| `C_Dt.v` | 18 | C15_naive, C15_utc, C15_zone, C15_date, C15_truncates, C15_year_refuted, C15_date_year_refuted, C15_fold_refuted, C16_datetime, C16_date, C16_zoned, C16_calendar, C16_day_number_unique, C16_empty_refuted, C16_no_context_refuted, C47_time, C47_time_utc_refuted, C47_period_refuted |
| `C_Empty.v` | 11 | C77_empty, C77_dict, C77_mapping_refuted, C77_with_dict, C77_serialize, C77_time, C77_parse, C77_zone_refuted, C77_period_parse, C77_period, C77_person |
| `C_Event.v` | 14 | C17_consistent, C17_mark_refuted, C17_aligned_refuted, C17_instant_refuted, C17_due_refuted, C18_atomic, C19_set_end, C19_set_duration, C19_set_begin, C19_related, C19_plus_refuted, C19_end_overflow_refuted, C20_object, C48_attributes |
| `C_Fail.v` | 11 | C71_entry, C71_alarm, C71_calendar, C71_component_agrees, C71_entry_agrees, C71_calendar_agrees, C71_entry_again, C71_calendar_again, C71_atomic_refuted, C71_calendar_refuted, C71_retry_refuted |
| `C_Float.v` | 17 | C69_number, C69_number_only, C69_rejected, C69_unique, C69_shown, C69_stable, C69_six_kept, C69_large_kept, C69_small_lost, C69_geo, C69_geo_only, C69_geo_rejected, C69_geo_kept, C69_geo_stable, C69_geo_text, C69_seven_refuted, C69_nan_refuted |
| `C_Floating.v` | 2 | C39_floating, C39_all_day |
| `C_Fold.v` | 11 | C07_fold_unfold, C07_fold_unfold_iter, C07_raw_line_break_refuted, C08_width, C08_continuations, C08_zero_width, C08_width_one_refuted, C08_octets_refuted, C09_foreign_folding_lines, C09_foreign_folding_text, C09_error_iff |
| `C_FromUtc.v` | 9 | C68_forward, C68_back, C68_unique, C68_history, C68_uncached, C68_fold_refuted, C68_second_refuted, C68_first_refuted, C68_wall_refuted |
| `C_Keep.v` | 6 | C31_entry_extra, C31_alarm_extra, C31_alarm, C31_entry, C31_calendar, C31_unwritable_refuted |
| `C_Line.v` | 12 | C04_param_roundtrip, C04_param_roundtrip_iff, C04_param_encoded_safe, C04_param_decode_sound, C04_param_decode_complete, C04_param_decode_error, C04_param_lossless_refuted, C05_line_roundtrip, C05_empty_param_value_refuted, C06_parse_total, C06_parse_exact, C06_repeated_param_dropped_refuted |
| `C_Mark.v` | 1 | C17_mark |
| `C_Merge.v` | 12 | C60_component, C60_calendar, C60_open, C60_given, C60_given_rest, C60_new, C60_entry, C60_several, C60_again, C60_span_refuted, C60_params_refuted, C60_write_refuted |
| `C_Multi.v` | 9 | C32_values_unique, C32_read, C32_written, C32_modified, C32_modified_writable, C32_fresh, C32_stripped, C32_length_refuted, C32_value_refuted |
| `C_Norm.v` | 12 | C39_unselected, C39_replace, C39_convert, C39_idempotent, C39_span, C39_span_idempotent, C39_calendar, C39_calendar_idempotent, C39_strip_refuted, C39_idempotent_refuted, C39_all_day_refuted, C39_atomic_refuted |
| `C_Open.v` | 9 | C34_open_ok, C34_zero, C34_several, C34_stray, C34_bad_first_refuted, C34_bad_text_refuted, C34_multiple, C34_string_to_container, C34_one |
| `C_Order.v` | 13 | C58_alarm, C58_entry, C58_calendar, C58_calendar_begins, C58_event_properties_first_refuted, C58_calendar_properties_first_refuted, C58_event_properties_first, C58_calendar_properties_first, C58_rfc_names_refuted, C58_renamed_written, C58_scale_written, C58_renamed_read, C58_scale_read |
| `C_Origin.v` | 4 | C63_origin, C63_closed, C63_known, C63_clash_refuted |
| `C_People.v` | 1 | C42_parameters |
| `C_Period.v` | 2 | C47_period, C47_period_total |
| `C_Person.v` | 9 | C42_history, C42_get, C42_several, C42_new, C42_line, C42_survive, C42_uri_refuted, C42_str_refuted, C42_comma_refuted |
| `C_PersonSet.v` | 4 | C42_set, C42_set_total, C42_set_one, C42_get_fails |
| `C_Read.v` | 10 | C53_alarm, C53_entry, C53_calendar, C53_alarm_unique, C53_entry_unique, C53_calendar_unique, C53_shared_parameters_refuted, C54_alarm, C54_entry, C54_calendar |
| `C_Ref.v` | 4 | C43_defined, C43_zone, C43_clash_refuted, C43_unknown_refuted |
| `C_Reorder.v` | 5 | C52_arrangement, C52_alarm, C52_entry, C52_calendar, C52_event_refuted |
| `C_Repr.v` | 10 | C70_read, C70_kept, C70_distinct, C70_nan, C70_nan_refuted, C70_shortest, C70_form, C70_zero, C70_infinite, C70_again |
| `C_RuleEq.v` | 11 | C65_rule_eq, C65_set_eq, C65_rule_equivalence, C65_set_equivalence, C65_rule_hash, C65_set_hash, C65_hash_refuted, C65_order_refuted, C65_text, C65_text_dates, C65_text_refuted |
| `C_Same.v` | 6 | C67_calendar, C67_entry, C67_alarm, C67_text, C67_quotes_refuted, C67_stable |
| `C_Scope.v` | 7 | C37_width, C37_factories, C37_inside, C37_data_inside, C37_threads_factories, C37_threads_width, C37_threads_refuted |
| `C_Seconds.v` | 9 | C78_offset_text, C78_one_double, C78_sign, C78_offset_integers, C78_offset_roundtrip, C78_offset_refuted, C78_duration, C78_duration_whole, C78_duration_refuted |
| `C_Show.v` | 7 | C64_span, C64_entry, C64_span_unique, C64_entry_unique, C64_equal, C64_precision_refuted, C64_zone_refuted |
| `C_Span.v` | 18 | C20_to_duration, C20_to_end, C20_fold_refuted, C20_zones_refuted, C20_due_refuted, C20_seconds_refuted, C20_tolerance_refuted, C21_one_zone, C21_excess, C21_idempotent, C21_no_end, C21_two_days_refuted, C21_zones_refuted, C22_floor, C22_ceil, C22_floor_days, C22_ceil_days, C22_days_total |
| `C_SpanOps.v` | 11 | C76_validate, C76_make, C76_length, C76_end, C76_convert_end, C76_duration_refuted, C76_astimezone, C76_replace_timezone, C76_convert_timezone, C76_make_all_day, C76_all_day_refuted |
| `C_Store.v` | 13 | C33_span, C33_dtend_params_refuted, C33_no_begin_refuted, C33_precision_refuted, C44_alarm, C44_custom_refuted, C45_event, C45_todo, C45_exact, C45_notes_refuted, C45_comma_refuted, C45_uid_refuted, C45_fold_refuted |
| `C_Strip.v` | 6 | C55_exact, C55_nothing, C55_twice, C55_alarm, C55_entry, C55_calendar |
| `C_Text.v` | 10 | C01_text_roundtrip, C01_text_injective, C02_text_no_line_break, C02_text_separators_escaped, C02_text_parse_exact, C02_text_parse_error, C03_text_list_roundtrip, C03_text_split_lossless, C03_text_split_exact, C03_text_split_error |
| `C_Timeline.v` | 21 | C26_timeline, C26_normalized, C26_order, C26_all_day_refuted, C26_clock_refuted, C27_included, C27_overlapping, C27_start_after, C27_at, C27_range, C27_picked, C27_start_after_refuted, C27_open_refuted, C28_on, C28_strict, C28_complete, C28_today, C28_last_second_refuted, C28_touching_refuted, C28_last_day_refuted, C28_now_refuted |
| `C_TlNone.v` | 3 | C27_at_none, C27_start_after_none, C28_on_none |
| `C_Tree.v` | 8 | C10_tree_roundtrip, C10_forest_roundtrip, C10_begin_line_refuted, C11_exact, C11_error_iff, C11_nothing_lost, C11_stray_end_refuted, C11_begin_params_refuted |
| `C_TzConv.v` | 27 | C56_offset, C56_name, C56_converted, C56_default_names, C56_default_exact, C56_label_refuted, C56_unsupported_refuted, C56_is_utc, C56_utc, C56_itself, C56_local, C56_named, C56_tzid, C56_unknown, C56_errors, C56_instant, C56_instants, C56_default_agree, C56_same_name_refuted, C56_no_name_refuted, C56_label_instant_refuted, C56_text, C56_fraction_refuted, C56_context, C56_cache_refuted, C56_builtin, C56_builtin_twice |
| `C_Vtz.v` | 17 | C49_roundtrip, C49_again, C49_times, C49_times_same, C49_start_refuted, C49_empty_refuted, C50_container, C50_text, C50_lookups, C50_calendar, C51_one_start, C51_error, C51_start, C51_no_start, C51_read_refuted, C51_differing_refuted, C51_empty_refuted |
| `C_VtzOnce.v` | 2 | C50_zone_once, C50_part_once |
| `C_Write.v` | 6 | C75_alarm, C75_entry, C75_alarm_total, C75_entry_total, C75_calendar, C75_writable_refuted |
| `C_Zone.v` | 9 | C29_in_force, C29_unique, C29_empty_refuted, C30_history, C30_one_fold, C30_either, C30_unrepeated, C30_fold_refuted, C30_eviction_refuted |
| `C_ZoneAgain.v` | 5 | C62_text, C62_container, C62_start, C62_offset_refuted, C62_dates_refuted |
| `C_ZoneRead.v` | 8 | C61_set, C61_obs, C61_zone, C61_obs_order, C61_zone_order, C61_params_refuted, C61_names_refuted, C61_starts_refuted |
