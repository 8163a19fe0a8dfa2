{
 "claims": [
  {
   "property": "C01",
   "status": "proved",
   "theorems": [
    "C01_text_roundtrip",
    "C01_text_injective"
   ],
   "note": ""
  },
  {
   "property": "C02",
   "status": "proved",
   "theorems": [
    "C02_text_no_line_break",
    "C02_text_separators_escaped",
    "C02_text_parse_exact",
    "C02_text_parse_error"
   ],
   "note": ""
  },
  {
   "property": "C03",
   "status": "proved",
   "theorems": [
    "C03_text_list_roundtrip",
    "C03_text_split_lossless",
    "C03_text_split_exact",
    "C03_text_split_error"
   ],
   "note": ""
  },
  {
   "property": "C04",
   "status": "proved",
   "theorems": [
    "C04_param_roundtrip",
    "C04_param_roundtrip_iff",
    "C04_param_encoded_safe",
    "C04_param_decode_sound",
    "C04_param_decode_complete",
    "C04_param_decode_error",
    "C04_param_lossless_refuted"
   ],
   "note": "Exact characterisation; C04_param_lossless_refuted records that carriage returns are dropped."
  },
  {
   "property": "C05",
   "status": "proved",
   "theorems": [
    "C05_line_roundtrip",
    "C05_empty_param_value_refuted"
   ],
   "note": "For lines meeting wf_line; C05_empty_param_value_refuted shows the condition on an empty last parameter value is needed. ASCII model of str.upper."
  },
  {
   "property": "C06",
   "status": "proved",
   "theorems": [
    "C06_parse_total",
    "C06_parse_exact",
    "C06_repeated_param_dropped_refuted"
   ],
   "note": "Finding: repeated parameter names keep only the last values."
  },
  {
   "property": "C07",
   "status": "proved",
   "theorems": [
    "C07_fold_unfold",
    "C07_fold_unfold_iter",
    "C07_raw_line_break_refuted"
   ],
   "note": "For every word splitter losing no characters; finding for raw line breaks in values."
  },
  {
   "property": "C08",
   "status": "proved",
   "theorems": [
    "C08_width",
    "C08_continuations",
    "C08_zero_width",
    "C08_width_one_refuted",
    "C08_octets_refuted"
   ],
   "note": "Width in code points, W >= 2; findings: width 1 and the 75-octet reading are refuted."
  },
  {
   "property": "C09",
   "status": "proved",
   "theorems": [
    "C09_foreign_folding_lines",
    "C09_foreign_folding_text",
    "C09_error_iff"
   ],
   "note": ""
  },
  {
   "property": "C10",
   "status": "proved",
   "theorems": [
    "C10_tree_roundtrip",
    "C10_forest_roundtrip",
    "C10_begin_line_refuted"
   ],
   "note": "Findings: a content line named BEGIN/END inside a tree changes the structure."
  },
  {
   "property": "C11",
   "status": "proved",
   "theorems": [
    "C11_exact",
    "C11_error_iff",
    "C11_nothing_lost",
    "C11_stray_end_refuted",
    "C11_begin_params_refuted"
   ],
   "note": "Findings: a stray END is kept as a plain line; parameters on BEGIN lines are lost."
  },
  {
   "property": "C12",
   "status": "proved",
   "theorems": [
    "C12_duration_roundtrip",
    "C12_truncation_refuted",
    "C12_written_grammar",
    "C12_written_grammar_refuted"
   ],
   "note": "Whole seconds without bound, fractions below 2^34 s; C12_truncation_refuted shows the bound is needed (double rounding). C12_written_grammar_refuted: PT1H1S is not an RFC dur-value."
  },
  {
   "property": "C13",
   "status": "proved",
   "theorems": [
    "C13_grammar_meaning",
    "C13_exact",
    "C13_total",
    "C13_overflow_iff",
    "C13_value_error_refuted",
    "C13_strict_refuted"
   ],
   "note": "Exact accepted language; findings: IndexError on some malformed input, non-RFC spellings accepted. isdigit modelled for ASCII."
  },
  {
   "property": "C14",
   "status": "proved",
   "theorems": [
    "C14_offset_roundtrip",
    "C14_written_form",
    "C14_parse_exact",
    "C14_parse_errors",
    "C14_bound_sharp"
   ],
   "note": "Bound of 100 hours proved sharp."
  },
  {
   "property": "C15",
   "status": "proved",
   "theorems": [
    "C15_naive",
    "C15_utc",
    "C15_zone",
    "C15_date",
    "C15_truncates",
    "C15_year_refuted",
    "C15_date_year_refuted",
    "C15_fold_refuted"
   ],
   "note": "Zones are arbitrary objects. Findings: years below 1000 cannot be read back (glibc strftime), dates of years 10-99 may be read back as other dates, fold=1 is lost. Fractions of a second are dropped (C15_truncates)."
  },
  {
   "property": "C16",
   "status": "proved",
   "theorems": [
    "C16_datetime",
    "C16_date",
    "C16_zoned",
    "C16_calendar",
    "C16_day_number_unique",
    "C16_empty_refuted",
    "C16_no_context_refuted"
   ],
   "note": "Exact accepted language (ASCII digits). Findings: the empty text is an IndexError; without a context dictionary a TZID gives AttributeError."
  },
  {
   "property": "C17",
   "status": "proved",
   "theorems": [
    "C17_consistent",
    "C17_mark_refuted",
    "C17_aligned_refuted",
    "C17_instant_refuted",
    "C17_due_refuted",
    "C17_mark"
   ],
   "note": "Events and todos, any history. Findings: all-day durations are day-aligned only up to half a second; within one zone clocks are compared, so around a DST change the end can be an earlier instant; a todo may have a due date without begin; clearing the mark __post_init__ switches all checks off (C17_mark_refuted). Histories that assign __post_init__ or __dict__ are excluded elsewhere."
  },
  {
   "property": "C18",
   "status": "proved",
   "theorems": [
    "C18_atomic"
   ],
   "note": "The whole object is unchanged by a failing setter or method."
  },
  {
   "property": "C19",
   "status": "proved",
   "theorems": [
    "C19_set_end",
    "C19_set_duration",
    "C19_set_begin",
    "C19_related",
    "C19_plus_refuted",
    "C19_end_overflow_refuted"
   ],
   "note": "Clock arithmetic within one zone, instants across zones; findings: begin + duration == end fails across zones with an offset change, reading the end may raise OverflowError."
  },
  {
   "property": "C20",
   "status": "proved",
   "theorems": [
    "C20_object",
    "C20_to_duration",
    "C20_to_end",
    "C20_fold_refuted",
    "C20_zones_refuted",
    "C20_due_refuted",
    "C20_seconds_refuted",
    "C20_tolerance_refuted"
   ],
   "note": "One zone or floating, precision day/second, end without fold; each condition is shown necessary by a refutation (fold, zones, due-only todo, precision 'seconds', tolerance)."
  },
  {
   "property": "C21",
   "status": "proved",
   "theorems": [
    "C21_one_zone",
    "C21_excess",
    "C21_idempotent",
    "C21_no_end",
    "C21_two_days_refuted",
    "C21_zones_refuted"
   ],
   "note": "One zone; exact minimality. Findings: an empty span at midnight grows by exactly one day; docstring example about two days; spans over far-apart zones are rejected."
  },
  {
   "property": "C22",
   "status": "proved",
   "theorems": [
    "C22_floor",
    "C22_ceil",
    "C22_floor_days",
    "C22_ceil_days",
    "C22_days_total"
   ],
   "note": "Datetimes and timedeltas, failures only at the ends of the range."
  },
  {
   "property": "C23",
   "status": "proved",
   "theorems": [
    "C23_exact",
    "C23_instant",
    "C23_symmetric",
    "C23_converse",
    "C23_transitive",
    "C23_includes_intersects",
    "C23_steady",
    "C23_zones_refuted",
    "C23_todo_refuted",
    "C23_no_begin",
    "C23_required",
    "C23_required_instant",
    "C23_todo_instant_refuted"
   ],
   "note": "For spans (not todos) whose begin and end can be converted to the local zone. Symmetry and converse over all zones; exactness, transitivity and includes=>intersects on datetimes with well-behaved clocks (tame; all datetimes where offsets are constant). Refuted: transitivity around a clock change; todo spans raise AttributeError."
  },
  {
   "property": "C24",
   "status": "proved",
   "theorems": [
    "C24_intersects",
    "C24_includes",
    "C24_empty",
    "C24_touching_refuted",
    "C24_self_refuted"
   ],
   "note": "Exact characterisation proved; the half-open reading is refuted: touching spans intersect (C24_touching_refuted) and no span includes itself (C24_self_refuted)."
  },
  {
   "property": "C25",
   "status": "proved",
   "theorems": [
    "C25_key",
    "C25_weak_order",
    "C25_entry_key",
    "C25_entries",
    "C25_representation",
    "C25_equal",
    "C25_equal_entries",
    "C25_cycle_refuted",
    "C25_fold_refuted"
   ],
   "note": "Strict weak order and consistency of all four operators for spans and entries on datetimes with well-behaved clocks; independence of end/duration over all zones. Refuted around clock changes: cycles, and ambiguous begins hide the ends."
  },
  {
   "property": "C26",
   "status": "proved",
   "theorems": [
    "C26_timeline",
    "C26_normalized",
    "C26_order",
    "C26_all_day_refuted",
    "C26_clock_refuted"
   ],
   "note": "CPython's heapq modelled; any list of valid events, on the well-behaved datetimes. Findings: an all-day event makes a normalising timeline raise; around a clock change the order is that of the clocks."
  },
  {
   "property": "C27",
   "status": "proved",
   "theorems": [
    "C27_included",
    "C27_overlapping",
    "C27_start_after",
    "C27_at",
    "C27_range",
    "C27_picked",
    "C27_start_after_refuted",
    "C27_open_refuted",
    "C27_at_none",
    "C27_start_after_none"
   ],
   "note": "Predicates are those proved for C23/C24. Findings: start_after raises TypeError when mixing floating and zoned times; a query without stop raises."
  },
  {
   "property": "C28",
   "status": "proved",
   "theorems": [
    "C28_on",
    "C28_strict",
    "C28_complete",
    "C28_today",
    "C28_last_second_refuted",
    "C28_touching_refuted",
    "C28_last_day_refuted",
    "C28_now_refuted",
    "C28_on_none"
   ],
   "note": "For every moment up to 23:59:59.000000 exactly the events sharing an instant with the day or touching it; nothing is missed at any moment. Findings: last second of the day returns the next day's events, touching events are returned, OverflowError on the last day, now() reads UTC as local time."
  },
  {
   "property": "C29",
   "status": "proved",
   "theorems": [
    "C29_in_force",
    "C29_unique",
    "C29_empty_refuted"
   ],
   "note": "Arbitrary onset sets; dateutil's rrule.before is the trusted interface. Finding: a zone without observances raises IndexError."
  },
  {
   "property": "C30",
   "status": "proved",
   "theorems": [
    "C30_history",
    "C30_one_fold",
    "C30_either",
    "C30_unrepeated",
    "C30_fold_refuted",
    "C30_eviction_refuted"
   ],
   "note": "For all wall times whose two readings agree, and for histories that use one fold; C30_fold_refuted: for repeated times the cache returns the answer of the reading asked first."
  },
  {
   "property": "C31",
   "status": "proved",
   "theorems": [
    "C31_entry_extra",
    "C31_alarm_extra",
    "C31_alarm",
    "C31_entry",
    "C31_calendar",
    "C31_unwritable_refuted"
   ],
   "note": "Unknown items of events, todos, alarms and calendars are written back unchanged and in order at every level, whenever writing succeeds; C31_unwritable_refuted: an ATTENDEE line with a CN parameter and two addresses can be read but not written (ValueError)."
  },
  {
   "property": "C32",
   "status": "proved",
   "theorems": [
    "C32_values_unique",
    "C32_read",
    "C32_written",
    "C32_modified",
    "C32_modified_writable",
    "C32_fresh",
    "C32_stripped",
    "C32_length_refuted",
    "C32_value_refuted"
   ],
   "note": "Exact characterisation of which modified category lists can be written (C32_modified_writable: same length as the stored parameter list, or no stored parameters; otherwise ValueError). C32_length_refuted and C32_value_refuted give witnesses for the changed-length failure and for VALUE=TEXT being dropped; guard plain_params."
  },
  {
   "property": "C33",
   "status": "proved",
   "theorems": [
    "C33_span",
    "C33_dtend_params_refuted",
    "C33_no_begin_refuted",
    "C33_precision_refuted"
   ],
   "note": "For events and todos. Exceptions, with witnesses: parameters of an event's DTEND line, precisions other than day and second, an event without times (C33_*_refuted)."
  },
  {
   "property": "C34",
   "status": "proved",
   "theorems": [
    "C34_open_ok",
    "C34_zero",
    "C34_several",
    "C34_stray",
    "C34_bad_first_refuted",
    "C34_bad_text_refuted",
    "C34_multiple",
    "C34_string_to_container",
    "C34_one"
   ],
   "note": "Calendar(text) succeeds iff the text holds exactly one container that can be read (C34_open_ok); zero, several and stray lines are ValueError (C34_zero, C34_several, C34_stray); parse_multiple is in order and complete (C34_multiple); string_to_container (C34_string_to_container, C34_one). Findings: with several calendars an exception of reading the first one wins, and a syntax error surfaces as ParseError, which is no ValueError (C34_bad_first_refuted, C34_bad_text_refuted)."
  },
  {
   "property": "C35",
   "status": "proved",
   "theorems": [
    "C35_component",
    "C35_component_equal_iff",
    "C35_component_lists",
    "C35_component_lists_refuted",
    "C35_component_refuted",
    "C35_container_equal",
    "C35_container_disjoint_iff",
    "C35_container_shared_refuted"
   ],
   "note": "Containers: the clone is equal (C35_container_equal); a deep clone shares nothing iff no sub-container has content (C35_container_disjoint_iff); finding: everything inside a sub-container is shared (C35_container_shared_refuted). Components: for every component reachable by construction, assignment, list changes and reading, clone succeeds and keeps class, attributes and members (C35_component); finding: extra items and extra parameters are always dropped, so it is equal iff there are none (C35_component_equal_iff, C35_component_refuted); list attributes are copied (C35_component_lists) except those of EmailAlarm, which are shared (C35_component_lists_refuted)."
  },
  {
   "property": "C36",
   "status": "proved",
   "theorems": [
    "C36_history",
    "C36_history_ok",
    "C36_ok",
    "C36_rejected",
    "C36_rejected_clean",
    "C36_extend_refuted",
    "C36_setitem_refuted",
    "C36_setslice_refuted",
    "C36_poisoned_refuted"
   ],
   "note": "For every history of container operations with items as arguments, or in which extend and assignments return normally, the data stays a list of content lines and containers (C36_history, C36_history_ok, C36_ok); exceptions leave the container unchanged (C36_rejected, C36_rejected_clean). Findings: extend, slice assignment and item assignment with a foreign value leave it inside after raising, and every later extend fails (C36_extend_refuted, C36_setitem_refuted, C36_setslice_refuted, C36_poisoned_refuted)."
  },
  {
   "property": "C37",
   "status": "proved",
   "theorems": [
    "C37_width",
    "C37_factories",
    "C37_inside",
    "C37_data_inside",
    "C37_threads_factories",
    "C37_threads_width",
    "C37_threads_refuted"
   ],
   "note": "Leaving a scope, normally or by an exception, restores the values set before, for every program and nesting and every interleaving of threads for the factories (C37_width, C37_factories, C37_inside, C37_threads_factories, C37_threads_width). Finding: the wrap width is one global variable, so overlapping scopes of two threads leave a wrong width behind (C37_threads_refuted)."
  },
  {
   "property": "C38",
   "status": "proved",
   "theorems": [
    "C38_rejected",
    "C38_construct",
    "C38_assign",
    "C38_invariant",
    "C38_shadowed_refuted"
   ],
   "note": "A rejected assignment changes nothing (C38_rejected). Assignments run exactly the declared converter and validator and all constraints stay true, as long as no class and a base class of it with other attributes are both used (C38_assign, C38_invariant, C38_construct). Finding: the fields remembered for a base class are used for derived classes, whose own attributes are then not validated (C38_shadowed_refuted)."
  },
  {
   "property": "C39",
   "status": "proved",
   "theorems": [
    "C39_floating",
    "C39_all_day",
    "C39_unselected",
    "C39_replace",
    "C39_convert",
    "C39_idempotent",
    "C39_span",
    "C39_span_idempotent",
    "C39_calendar",
    "C39_calendar_idempotent",
    "C39_strip_refuted",
    "C39_idempotent_refuted",
    "C39_all_day_refuted",
    "C39_atomic_refuted"
   ],
   "note": "Datetimes, spans and calendars; converting needs a correct zone object. Refuted: idempotence for replacement None with floating=CONVERT, with_tz=REPLACE; stripping by CONVERT with None; all-day spans raise; a failing calendar normalisation is not atomic."
  },
  {
   "property": "C40",
   "status": "proved",
   "theorems": [
    "C40_bool_roundtrip",
    "C40_bool_exact",
    "C40_bool_errors",
    "C40_only_true_false_refuted",
    "C40_int_roundtrip",
    "C40_int_written",
    "C40_int_read",
    "C40_int_errors",
    "C40_int_exact"
   ],
   "note": "Exact word lists; the claim that only TRUE/FALSE are accepted is refuted."
  },
  {
   "property": "C41",
   "status": "proved",
   "theorems": [
    "C41_binary_roundtrip",
    "C41_binary_encoding",
    "C41_binary_alphabet",
    "C41_binary_ignores",
    "C41_binary_total",
    "C41_binary_exact"
   ],
   "note": ""
  },
  {
   "property": "C42",
   "status": "proved",
   "theorems": [
    "C42_parameters",
    "C42_history",
    "C42_get",
    "C42_several",
    "C42_new",
    "C42_line",
    "C42_survive",
    "C42_uri_refuted",
    "C42_str_refuted",
    "C42_comma_refuted",
    "C42_set",
    "C42_set_total",
    "C42_set_one",
    "C42_get_fails"
   ],
   "note": "All histories of assignments of rightly typed values, deletions and address changes behave like independent fields (C42_history); text and boolean attributes, and URIs that need no quotes, survive the line (C42_line, C42_survive). Every assignment stores definite texts or raises a definite exception (C42_set, for the kinds of value in the model), and reading fails in exactly the described cases (C42_get_fails). Findings: absolute URIs cannot be read after writing and reading (C42_uri_refuted, AttributeError); a str assigned to a URI attribute reads as a parsed one (C42_str_refuted); an attendee address with a comma becomes two attendees (C42_comma_refuted)."
  },
  {
   "property": "C43",
   "status": "proved",
   "theorems": [
    "C43_defined",
    "C43_zone",
    "C43_clash_refuted",
    "C43_unknown_refuted"
   ],
   "note": "For a zone writer that writes each zone as a VTIMEZONE with its own identifier (contract zone_writer on the external zone writer), and calendars whose unknown properties and parameters do not mention zones. With distinct identifiers the definition is the zone the value had (C43_zone). Findings: zones with equal identifiers (C43_clash_refuted), unknown properties with TZID (C43_unknown_refuted)."
  },
  {
   "property": "C44",
   "status": "proved",
   "theorems": [
    "C44_alarm",
    "C44_custom_refuted"
   ],
   "note": "All alarms of the four standard kinds; custom alarms can never be read back (C44_custom_refuted, for every custom alarm)."
  },
  {
   "property": "C45",
   "status": "proved",
   "theorems": [
    "C45_text",
    "C45_event",
    "C45_todo",
    "C45_exact",
    "C45_notes_refuted",
    "C45_comma_refuted",
    "C45_uid_refuted",
    "C45_fold_refuted"
   ],
   "note": "Events and todos with their alarms, unknown items and parameters; storable values are listed in S_Store. Exceptions with witnesses in C45_*_refuted: notes on list attributes, commas in attached URLs, missing UID, fold marks. C45_text: the same through the written text."
  },
  {
   "property": "C46",
   "status": "proved",
   "theorems": [
    "C46_calendar",
    "C46_exact",
    "C46_container",
    "C46_several",
    "C46_iter",
    "C46_iter_fails",
    "C46_clash_refuted",
    "C46_name_refuted"
   ],
   "note": "Every width and word-boundary choice; calendars of storable events and todos whose zones survive the external zone reader and writer (contract zones_stored); equality up to the notes reading adds (C46_exact: none if they are there). Iteration gives the lines of the text (C46_iter)."
  },
  {
   "property": "C47",
   "status": "proved",
   "theorems": [
    "C47_time",
    "C47_time_utc_refuted",
    "C47_period_refuted",
    "C47_period",
    "C47_period_total"
   ],
   "note": "Which texts are read as periods, as what, and with which exception the others are refused, without TZID (C47_period, C47_period_total). Findings: PERIOD output is never readable, TIME never uses the UTC form."
  },
  {
   "property": "C48",
   "status": "proved",
   "theorems": [
    "C48_attributes"
   ],
   "note": "Events and todos, any history that does not assign __post_init__ or __dict__."
  },
  {
   "property": "C49",
   "status": "proved",
   "theorems": [
    "C49_roundtrip",
    "C49_again",
    "C49_times",
    "C49_times_same",
    "C49_start_refuted",
    "C49_empty_refuted"
   ],
   "note": "Any reader of rules and dates. The start of the rules comes back as a further date (compatible=True), so a start that is no occurrence becomes one (C49_start_refuted); an empty set is written as nothing and cannot be read (C49_empty_refuted)."
  },
  {
   "property": "C50",
   "status": "proved",
   "theorems": [
    "C50_container",
    "C50_text",
    "C50_lookups",
    "C50_calendar",
    "C50_zone_once",
    "C50_part_once"
   ],
   "note": "All storable zones, at the level of containers and of text; equality up to the starts of the recurrence sets, with the same answers to all lookups if these are occurrences. C50_calendar discharges the zone contract of C46 for zones written as definitions."
  },
  {
   "property": "C51",
   "status": "proved",
   "theorems": [
    "C51_one_start",
    "C51_error",
    "C51_start",
    "C51_no_start",
    "C51_read_refuted",
    "C51_differing_refuted",
    "C51_empty_refuted"
   ],
   "note": "False in general: an observance that was read from DTSTART alone is written without it (C51_read_refuted), one with differing starts cannot be written (C51_differing_refuted). With a rule that has a start there is exactly one DTSTART."
  },
  {
   "property": "C52",
   "status": "proved",
   "theorems": [
    "C52_arrangement",
    "C52_alarm",
    "C52_entry",
    "C52_calendar",
    "C52_event_refuted"
   ],
   "note": "All rearrangements at all levels. Refuted for DTEND and DUE in one event (C52_event_refuted): DUE before DTEND is accepted, DTEND before DUE is rejected."
  },
  {
   "property": "C53",
   "status": "proved",
   "theorems": [
    "C53_action_none",
    "C53_action_several",
    "C53_action_component",
    "C53_alarm",
    "C53_entry",
    "C53_calendar",
    "C53_alarm_unique",
    "C53_entry_unique",
    "C53_calendar_unique",
    "C53_shared_parameters_refuted"
   ],
   "note": "Against a declarative description (S_Read.v) that lists name, value types, rule and attribute of every property and does not mention the reading loop. Refuted for the parameters of a line with several attendees (C53_shared_parameters_refuted): only the first one gets them. Components without a single ACTION line are refused with definite exceptions (C53_action_none, _several, _component)."
  },
  {
   "property": "C54",
   "status": "proved",
   "theorems": [
    "C54_alarm",
    "C54_entry",
    "C54_calendar"
   ],
   "note": "The converse of C53: no spurious rejection; the component read is the one described, by C53 the only one."
  },
  {
   "property": "C55",
   "status": "proved",
   "theorems": [
    "C55_exact",
    "C55_nothing",
    "C55_twice",
    "C55_alarm",
    "C55_entry",
    "C55_calendar"
   ],
   "note": "The components' dicts have each key once (hypothesis dicts). For calendars a time zone is assumed to be written as a container. Only the component itself is stripped: its members keep their extra content (part of the statement)."
  },
  {
   "property": "C56",
   "status": "proved",
   "theorems": [
    "C56_offset",
    "C56_name",
    "C56_converted",
    "C56_default_names",
    "C56_default_exact",
    "C56_label_refuted",
    "C56_unsupported_refuted",
    "C56_is_utc",
    "C56_utc",
    "C56_itself",
    "C56_local",
    "C56_named",
    "C56_tzid",
    "C56_unknown",
    "C56_errors",
    "C56_instant",
    "C56_instants",
    "C56_default_agree",
    "C56_same_name_refuted",
    "C56_no_name_refuted",
    "C56_label_instant_refuted",
    "C56_text",
    "C56_fraction_refuted",
    "C56_context",
    "C56_cache_refuted",
    "C56_builtin",
    "C56_builtin_twice"
   ],
   "note": "Honest labels, non-empty names and agreeing names are needed: refuted without (C56_label_refuted, C56_label_instant_refuted, C56_no_name_refuted, C56_same_name_refuted); dateutil tzoffset and pytz FixedOffset cannot be converted (C56_unsupported_refuted); fractions of a second are lost (C56_fraction_refuted); the cache in the context is never used (C56_cache_refuted). The zone classes are modelled by the data the code looks at."
  },
  {
   "property": "C57",
   "status": "proved",
   "theorems": [
    "C57_value",
    "C57_special",
    "C57_ignored",
    "C57_unknown_class",
    "C57_nested_lists",
    "C57_registered",
    "C57_unregistered",
    "C57_bytearray_refuted",
    "C57_sorted",
    "C57_sorted_only",
    "C57_lookup",
    "C57_tables",
    "C57_observance_table",
    "C57_zone_table"
   ],
   "note": "The tables for the classes are finite and compared by computation; the rest is for all declarations. An attribute of type bytearray cannot be declared although a converter is registered for it (C57_bytearray_refuted)."
  },
  {
   "property": "C58",
   "status": "proved",
   "theorems": [
    "C58_alarm",
    "C58_entry",
    "C58_calendar",
    "C58_calendar_begins",
    "C58_event_properties_first_refuted",
    "C58_calendar_properties_first_refuted",
    "C58_event_properties_first",
    "C58_calendar_properties_first",
    "C58_rfc_names_refuted",
    "C58_renamed_written",
    "C58_scale_written",
    "C58_renamed_read",
    "C58_scale_read"
   ],
   "note": "The order of RFC 5545 (properties before components) is refuted and characterised exactly (C58_event_properties_first_refuted, C58_calendar_properties_first_refuted); so are its names CLASS, TRANSP, PERCENT-COMPLETE and CALSCALE (C58_rfc_names_refuted)."
  },
  {
   "property": "C59",
   "status": "proved",
   "theorems": [
    "C59_text",
    "C59_lines",
    "C59_container",
    "C59_written_lines",
    "C59_write_refuted",
    "C59_reread_refuted",
    "C59_end_refuted"
   ],
   "note": "For keepable calendars whose zones survive being written (C50 gives conditions for that). Without these conditions it is refuted: two persons on an ATTENDEE line cannot be written (C59_write_refuted), a custom alarm and a year before 1000 are written as text that cannot be read (C59_reread_refuted), and the parameters of DTEND are lost (C59_end_refuted)."
  },
  {
   "property": "C60",
   "status": "proved",
   "theorems": [
    "C60_component",
    "C60_calendar",
    "C60_open",
    "C60_given",
    "C60_given_rest",
    "C60_new",
    "C60_entry",
    "C60_several",
    "C60_again",
    "C60_span_refuted",
    "C60_params_refuted",
    "C60_write_refuted"
   ],
   "note": "For components whose list attributes are lists. Stronger readings are refuted: the time span is reset even if no line mentions it (C60_span_refuted), old parameters can stay with a new value (C60_params_refuted), and an event with categories set by hand that then reads a CATEGORIES line can no longer be written (C60_write_refuted)."
  },
  {
   "property": "C61",
   "status": "proved",
   "theorems": [
    "C61_set",
    "C61_obs",
    "C61_zone",
    "C61_obs_order",
    "C61_zone_order",
    "C61_params_refuted",
    "C61_names_refuted",
    "C61_starts_refuted"
   ],
   "note": "Reading rules and dates is dateutil's. RFC 5545 allows more than is read: other parameters at lines of the recurrence set (C61_params_refuted) and several names of an observance (C61_names_refuted); two DTSTART lines, not allowed there, are read and the last one counts (C61_starts_refuted)."
  },
  {
   "property": "C62",
   "status": "proved",
   "theorems": [
    "C62_text",
    "C62_container",
    "C62_start",
    "C62_offset_refuted",
    "C62_dates_refuted"
   ],
   "note": "With the listed conditions. An offset of more than 100 hours (+9999) is read and written in a form that cannot be read (C62_offset_refuted); without DTSTART the start dateutil gives a rule, the current time, becomes a date (C62_dates_refuted)."
  },
  {
   "property": "C63",
   "status": "proved",
   "theorems": [
    "C63_origin",
    "C63_closed",
    "C63_known",
    "C63_clash_refuted"
   ],
   "note": "With the conditions of C59 and C62 on values and definitions. If a calendar defines a zone with the identifier of a zone that the library knows by another name and uses both, one of them replaces the other when the calendar is written and read (C63_clash_refuted)."
  },
  {
   "property": "C64",
   "status": "proved",
   "theorems": [
    "C64_span",
    "C64_entry",
    "C64_span_unique",
    "C64_entry_unique",
    "C64_equal",
    "C64_precision_refuted",
    "C64_zone_refuted"
   ],
   "note": "The texts of datetime and timedelta are modelled after CPython, strftime's %Y after glibc (no padding). The text shows neither the precision of a span that is not all-day (C64_precision_refuted) nor the zone, so readings that occur twice can be unequal (C64_zone_refuted)."
  },
  {
   "property": "C65",
   "status": "proved",
   "theorems": [
    "C65_rule_eq",
    "C65_set_eq",
    "C65_rule_equivalence",
    "C65_set_equivalence",
    "C65_rule_hash",
    "C65_set_hash",
    "C65_hash_refuted",
    "C65_order_refuted",
    "C65_text",
    "C65_text_dates",
    "C65_text_refuted"
   ],
   "note": "Values and hash functions are quantified; the text of one rule is dateutil's. Equal rules given their parameters in another order can have different hashes (C65_hash_refuted), sets with the same rules in another order are unequal (C65_order_refuted), and the text of an exclusion rule with a start or of a date is no recurrence line (C65_text_refuted)."
  },
  {
   "property": "C66",
   "status": "proved",
   "theorems": [
    "C66_declared",
    "C66_written",
    "C66_checked",
    "C66_unchecked",
    "C66_error",
    "C66_check_refuted",
    "C66_unquote",
    "C66_unquote_error",
    "C66_classes"
   ],
   "note": "The check only looks at the beginning of names (re.match without an anchor), so controls and other characters pass it (C66_check_refuted). The combined patterns are not used by the code; the grammar is stated in S_Check. Python's -O would drop the assertions."
  },
  {
   "property": "C67",
   "status": "proved",
   "theorems": [
    "C67_calendar",
    "C67_entry",
    "C67_alarm",
    "C67_text",
    "C67_quotes_refuted",
    "C67_stable"
   ],
   "note": "Quotes around parameter values are kept but not compared, so equal calendars can have different texts (C67_quotes_refuted); C67_text and the last part of C67_stable are for containers without needless quotes. C67_stable has the hypotheses of C59."
  },
  {
   "property": "C68",
   "status": "proved",
   "theorems": [
    "C68_forward",
    "C68_back",
    "C68_unique",
    "C68_history",
    "C68_uncached",
    "C68_fold_refuted",
    "C68_second_refuted",
    "C68_first_refuted",
    "C68_wall_refuted"
   ],
   "note": "The cache ignores fold, so fold is never set (C68_fold_refuted), times in the repeated hour are changed by the way there and back (C68_second_refuted, C68_first_refuted) and the wall time is wrong if the standard offset is zero (C68_wall_refuted). C68_uncached: without the cache all conversions would be right. fromutc is dateutil's (trusted base)."
  },
  {
   "property": "C69",
   "status": "proved",
   "theorems": [
    "C69_number",
    "C69_number_only",
    "C69_rejected",
    "C69_unique",
    "C69_shown",
    "C69_stable",
    "C69_six_kept",
    "C69_large_kept",
    "C69_small_lost",
    "C69_geo",
    "C69_geo_only",
    "C69_geo_rejected",
    "C69_geo_kept",
    "C69_geo_stable",
    "C69_geo_text",
    "C69_seven_refuted",
    "C69_nan_refuted"
   ],
   "note": "float() and %f are modelled for ASCII texts (trusted base). Coordinates with seven decimals are changed (C69_seven_refuted), all below half a millionth become zero (C69_small_lost), the bits of NaN are not kept (C69_nan_refuted)."
  },
  {
   "property": "C70",
   "status": "proved",
   "theorems": [
    "C70_read",
    "C70_kept",
    "C70_distinct",
    "C70_nan",
    "C70_nan_refuted",
    "C70_shortest",
    "C70_form",
    "C70_zero",
    "C70_infinite",
    "C70_again"
   ],
   "note": "float() and repr are those of CPython (trusted base). The bits of NaN are not kept (C70_nan_refuted)."
  },
  {
   "property": "C71",
   "status": "proved",
   "theorems": [
    "C71_entry",
    "C71_alarm",
    "C71_calendar",
    "C71_component_agrees",
    "C71_entry_agrees",
    "C71_calendar_agrees",
    "C71_entry_again",
    "C71_calendar_again",
    "C71_atomic_refuted",
    "C71_calendar_refuted",
    "C71_retry_refuted"
   ],
   "note": "That a failing call changes nothing is refuted (C71_atomic_refuted, C71_calendar_refuted), and so is that a later good call gives what it would have given before (C71_retry_refuted)."
  },
  {
   "property": "C72",
   "status": "proved",
   "theorems": [
    "C72_get",
    "C72_set",
    "C72_delete",
    "C72_no_such_item",
    "C72_insert",
    "C72_append",
    "C72_extend_atomic_refuted",
    "C72_reverse",
    "C72_get_slice",
    "C72_get_slice_nameless",
    "C72_delete_slice",
    "C72_set_segment",
    "C72_set_slice",
    "C72_step_zero",
    "C72_get_name",
    "C72_delete_name",
    "C72_name_poisoned",
    "C72_remove",
    "C72_contains",
    "C72_count",
    "C72_index"
   ],
   "note": "That an extend that fails changes nothing is refuted (C72_extend_atomic_refuted)."
  },
  {
   "property": "C73",
   "status": "proved",
   "theorems": [
    "C73_predicates",
    "C73_instants",
    "C73_receiver",
    "C73_span_entry_refuted",
    "C73_in_refuted",
    "C73_compare_entries",
    "C73_compare_spans",
    "C73_mixed"
   ],
   "note": "That a span takes an entry where the entry takes the span is refuted (C73_span_entry_refuted), and so is that entries have the operator in (C73_in_refuted)."
  },
  {
   "property": "C74",
   "status": "proved",
   "theorems": [
    "C74_datetime",
    "C74_timedelta",
    "C74_assign",
    "C74_computed",
    "C74_computed_total",
    "C74_unwritable",
    "C74_add_attendee",
    "C74_add_attendee_todo",
    "C74_kinds",
    "C74_outcome",
    "C74_new",
    "C74_new_succeeds",
    "C74_unchecked_refuted",
    "C74_geo_refuted",
    "C74_letters_refuted"
   ],
   "note": "That unsuitable values are refused is refuted for the free attributes (C74_unchecked_refuted), for positions (C74_geo_refuted) and for texts given as lists (C74_letters_refuted)."
  },
  {
   "property": "C75",
   "status": "proved",
   "theorems": [
    "C75_alarm",
    "C75_entry",
    "C75_alarm_total",
    "C75_entry_total",
    "C75_calendar",
    "C75_writable_refuted"
   ],
   "note": "That every named alarm can be written is refuted: a custom alarm without action cannot (C75_writable_refuted)."
  },
  {
   "property": "C76",
   "status": "proved",
   "theorems": [
    "C76_validate",
    "C76_make",
    "C76_length",
    "C76_end",
    "C76_convert_end",
    "C76_duration_refuted",
    "C76_astimezone",
    "C76_replace_timezone",
    "C76_convert_timezone",
    "C76_make_all_day",
    "C76_all_day_refuted"
   ],
   "note": "Refuted: that an accepted span can always be made all-day (C76_all_day_refuted: with begin and end in different zones the result is a ValueError), and that an end can always be told as a duration (C76_duration_refuted: precision other than day and second)."
  },
  {
   "property": "C77",
   "status": "proved",
   "theorems": [
    "C77_empty",
    "C77_dict",
    "C77_mapping_refuted",
    "C77_with_dict",
    "C77_serialize",
    "C77_time",
    "C77_parse",
    "C77_zone_refuted",
    "C77_period_parse",
    "C77_period",
    "C77_person"
   ],
   "note": "Refuted: that EmptyDict is a mapping (C77_mapping_refuted: it contains every key but has no items and its get ignores the default), and that a time written without parameters keeps its zone when read back (C77_zone_refuted)."
  },
  {
   "property": "C78",
   "status": "proved",
   "theorems": [
    "C78_offset_text",
    "C78_one_double",
    "C78_sign",
    "C78_offset_integers",
    "C78_offset_roundtrip",
    "C78_offset_refuted",
    "C78_duration",
    "C78_duration_whole",
    "C78_duration_refuted"
   ],
   "note": "Refuted: that the text is the one of exact arithmetic for all timedeltas (C78_offset_refuted, C78_duration_refuted: beyond 2**34 seconds a fraction may be rounded up to the next second)."
  }
 ]
}