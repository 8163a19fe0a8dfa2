{"id": "C01", "title": "TEXT values survive escape and unescape", "statement": "Writing any Python string as an iCalendar TEXT value and reading the written form back gives exactly the original string; consequently two different strings never get the same written form.", "quantifier": "every string over all code points, of every length", "why_tests_cant": "The string space is infinite and the failure modes are interactions of backslashes with neighbouring characters; samples only cover the interactions someone thought of.", "anchors": ["src/ics/valuetype/text.py: TextConverter.parse, TextConverter.serialize, escape_text, unescape_text", "src/ics/utils.py: next_after_str_escape"]}
{"id": "C02", "title": "A written TEXT value cannot break out of its value", "statement": "The written form of any string contains no CR and no LF, and every ',' and ';' in it is preceded by an escaping backslash, so text supplied by a user can neither start a new content line nor a new list element. Reading succeeds exactly for strings in which every backslash starts one of the six known escapes and no raw ';' ',' CR or LF occurs; every other string is rejected with ValueError and never with another exception.", "quantifier": "every string, as user text and as raw file text", "why_tests_cant": "An injection needs one overlooked character combination; absence over all strings and exactness of the accepted language cannot be sampled.", "anchors": ["src/ics/valuetype/text.py: TextConverter.escape_text, TextConverter.unescape_text", "src/ics/utils.py: next_after_str_escape"]}
{"id": "C03", "title": "TEXT lists survive join and split", "statement": "Joining any non-empty list of written TEXT values into one property value and splitting it again yields the same list. Splitting loses no characters: joining the pieces always gives the input back, and the only inputs rejected are those that end inside an escape.", "quantifier": "every non-empty list of strings; every raw value", "why_tests_cant": "Splitting at an escaped comma or missing a real one depends on arbitrary long runs of backslashes across element borders.", "anchors": ["src/ics/valuetype/text.py: TextConverter.split_value_list, TextConverter.join_value_list", "src/ics/utils.py: next_after_str_escape"]}
{"id": "C04", "title": "Parameter values survive caret encoding", "statement": "Encoding any parameter value with the RFC 6868 caret rules and decoding it again gives the original string with carriage returns removed, hence exactly the original if and only if it has no CR; the encoded form contains no double quote and no line break. Decoding rejects exactly the strings with a caret not followed by one of ^ n '.", "quantifier": "every string", "why_tests_cant": "Caret runs interact (^^n versus ^n) and the claim is about all strings; the loss of CR is only visible when stated for all inputs.", "anchors": ["src/ics/contentline/container.py: escape_param, unescape_param"]}
{"id": "C05", "title": "A content line survives writing and reading", "statement": "Writing any well-formed content line (name without ':' ';' line breaks and not starting with blank; parameter names distinct, without '=' ':' ';' or line breaks; every parameter with at least one value and its last value non-empty or explicitly quoted; no CR in parameter values; no line break in the value) and parsing the unfolded line yields an equal line: same name, same parameters in the same order with the same values, same value.", "quantifier": "every content line meeting the stated shape, any number of parameters and values", "why_tests_cant": "Quoting depends on every combination of delimiters in every parameter value; the parser walks a shared delimiter iterator past quoted regions, so correctness is a loop invariant over unbounded input.", "anchors": ["src/ics/contentline/container.py: ContentLine.serialize, ContentLine._serialize_iter_unwrapped, QuotedParamValue", "src/ics/contentline/parser.py: ContentLineParser"]}
{"id": "C06", "title": "The line parser is total and only raises ParseError", "statement": "Parsing any text line terminates and either returns a content line or raises ParseError; it never raises IndexError or another exception. When it succeeds, the value is the exact remainder of the line after the ':' that ends the parameters and the name is the exact (upper-cased) text before the first ':' or ';'.", "quantifier": "every string", "why_tests_cant": "Absence of stray exceptions and of endless loops is a claim over all inputs, including adversarial files.", "anchors": ["src/ics/contentline/parser.py: ContentLineParser.parse, parse_param, parse_quoted_param_val, parse_raw_param_val, next_delim"]}
{"id": "C07", "title": "Folding is undone by unfolding", "statement": "For every line text without line breaks that is non-empty and does not start with a blank, and for every configured wrap width, splitting the folded output into physical lines and unfolding it gives back exactly the text, once, whatever word boundaries the wrapper picks.", "quantifier": "every text, every width (including 0/None meaning unlimited and absurdly small widths), every way the word splitter may cut the text into chunks", "why_tests_cant": "The wrapper keeps state across words and breaks long words; the round trip must hold for all texts and widths, not for those in the test-suite.", "anchors": ["src/ics/contentline/container.py: ContentLine.serialize, ContentLine.serialize_iter, DEFAULT_LINE_WRAP, contentline_set_wrap", "src/ics/contentline/parser.py: ParserClass.string_to_lines, ParserClass.unfold_lines"]}
{"id": "C08", "title": "Folded lines respect the configured width", "statement": "With a wrap width of at least 2, every physical line written for a content line has at most that many characters, no physical line is empty, and wrapping always terminates. (The bound is in characters: it is not a bound on octets, which RFC 5545 asks for.)", "quantifier": "every text, every width >= 2, every word-boundary choice", "why_tests_cant": "The bound has to hold for every position at which a long word or run of blanks can straddle a line end.", "anchors": ["src/ics/contentline/container.py: DEFAULT_LINE_WRAP, ContentLine.serialize"]}
{"id": "C09", "title": "Foreign folding is transparent to the reader", "statement": "However another program folds a logical line (any cut points, blank or tab as fold marker, CRLF, LF or CR as line ends, any number of blank lines in between), reading yields the same logical lines. A continuation line with nothing before it raises ParseError.", "quantifier": "every list of logical lines and every folding of them", "why_tests_cant": "Input files come from arbitrary producers; the set of foldings of even one line is exponential.", "anchors": ["src/ics/contentline/parser.py: ParserClass.string_to_lines, ParserClass.unfold_lines"]}
{"id": "C10", "title": "A component tree survives writing and reading", "statement": "Serialising any container tree of well-formed content lines and nested containers (arbitrary depth and width) and parsing the resulting text yields exactly that one tree.", "quantifier": "every well-formed container tree, every wrap width, every word-boundary choice", "why_tests_cant": "Trees are unbounded in depth and the parser is recursive over a shared token stream; only induction covers all trees.", "anchors": ["src/ics/contentline/container.py: Container.serialize, Container.serialize_iter", "src/ics/contentline/parser.py: string_to_containers, contentlines_to_containers, contentlines_to_container"]}
{"id": "C11", "title": "Nesting errors are always detected and nothing is dropped", "statement": "For any sequence of content lines, parsing into containers either succeeds, in which case writing the result as a flat line sequence reproduces the input lines in order (nothing lost, duplicated or reordered), or fails because of an END that does not match the innermost open BEGIN, a missing END, or an empty container name. It succeeds whenever the sequence is properly nested.", "quantifier": "every sequence of content lines", "why_tests_cant": "Matching of arbitrarily nested BEGIN/END is a property of all sequences; silent data loss is only excluded by a proof over all of them.", "anchors": ["src/ics/contentline/parser.py: ParserClass.contentlines_to_containers, ParserClass.contentlines_to_container"]}
{"id": "C12", "title": "DURATION values survive writing and reading", "statement": "Writing any whole-second timedelta (positive, negative or zero) as a DURATION and reading it back gives the same timedelta; a timedelta with fractional seconds is read back truncated towards zero.", "quantifier": "every timedelta", "why_tests_cant": "The unit decomposition and omission of zero parts interact with sign and with the day/time separator for unboundedly many values.", "anchors": ["src/ics/valuetype/datetime.py: DurationConverter.parse, DurationConverter.serialize"]}
{"id": "C13", "title": "DURATION parsing computes the sum of its parts", "statement": "For every string in the RFC 5545 dur-value grammar (optional sign, weeks or days and/or time parts with any number of digits) the parsed timedelta is the signed sum of the parts. For every string whatsoever the parser terminates and either returns a duration or raises an exception; the expectation that malformed input always gives ValueError is checked too.", "quantifier": "every string over ASCII; every grammatical duration", "why_tests_cant": "The accepted language and its meaning are properties of all strings.", "anchors": ["src/ics/valuetype/datetime.py: DurationConverter.parse"]}
{"id": "C14", "title": "UTC-OFFSET values survive writing and reading", "statement": "Writing any whole-second offset of absolute value below 100 hours and reading it back gives the same offset, with the sign and seconds part kept.", "quantifier": "every whole-second offset", "why_tests_cant": "Sign handling with Python's floor-normalised negative timedeltas must be right for each value, not for sampled ones.", "anchors": ["src/ics/valuetype/datetime.py: UTCOffsetConverter.parse, UTCOffsetConverter.serialize"]}
{"id": "C15", "title": "DATE and DATE-TIME values survive writing and reading", "statement": "Writing any date, or any naive or UTC datetime with whole seconds, from year 1000 on, and reading it back gives the same value and the same UTC/floating kind; a datetime with a TZID is read back with the same wall time in the zone registered under that TZID.", "quantifier": "every valid date/datetime with year in 1000..9999, every time of day, every zone registry", "why_tests_cant": "315 billion values and format selection by string length; the claim also covers the interplay of Z stripping and TZID parameters.", "anchors": ["src/ics/valuetype/datetime.py: DatetimeConverterMixin._serialize_dt, DatetimeConverterMixin._parse_dt, DatetimeConverter, DateConverter"]}
{"id": "C16", "title": "Accepted date values denote real calendar dates", "statement": "Whenever a DATE or DATE-TIME value is accepted, the result is a valid proleptic Gregorian date and time whose digits are the ones in the text; impossible dates such as 30 February, month 13 or hour 24 are always rejected with ValueError.", "quantifier": "every string over ASCII", "why_tests_cant": "Leap-year rules and digit-group alternatives interact over all strings of several lengths.", "anchors": ["src/ics/valuetype/datetime.py: DatetimeConverterMixin._parse_dt"]}
{"id": "C17", "title": "An event's time span is always consistent", "statement": "After any sequence of attribute assignments and method calls on an event (begin, end, duration, replace_timezone, convert_timezone, make_all_day, convert_end ..., successful or failing), a set end is never before begin, end and duration are never both set, a set end or duration implies a set begin, the duration is never negative, and an all-day span is day-aligned and floating.", "quantifier": "every finite history of operations with arbitrary arguments", "why_tests_cant": "It is an invariant over unbounded operation histories with arbitrary values.", "anchors": ["src/ics/timespan.py: Timespan.validate, Timespan.replace, EventTimespan.validate", "src/ics/event.py: CalendarEntryAttrs"]}
{"id": "C18", "title": "A rejected change leaves the event as it was", "statement": "Whenever an assignment or operation on an event raises, every observable attribute of the event is unchanged.", "quantifier": "every event state and every failing operation", "why_tests_cant": "All failing argument/state combinations have to be covered, including failures in the middle of a multi-step setter.", "anchors": ["src/ics/event.py: CalendarEntryAttrs.begin, end, duration", "src/ics/timespan.py: Timespan.replace", "src/ics/types.py: RuntimeAttrValidation"]}
{"id": "C19", "title": "begin, end and duration stay related as documented", "statement": "After successfully setting end, reading end gives that value and begin is unchanged; after setting duration, end is begin plus duration; after moving begin, an event defined by its end keeps the end and an event defined by its duration keeps the duration; end is always begin plus duration.", "quantifier": "every event state and every argument value", "why_tests_cant": "Laws relating arbitrary values in arbitrary states, over both end representations.", "anchors": ["src/ics/event.py: CalendarEntryAttrs.begin, end, duration", "src/ics/timespan.py: get_effective_end, get_effective_duration"]}
{"id": "C20", "title": "Switching the end representation changes nothing observable", "statement": "Converting an event between 'end' and 'duration' representation keeps begin, end, duration, precision and ordering, for datetimes sharing one timezone (or floating).", "quantifier": "every valid time span and every target representation", "why_tests_cant": "Claim about equality of all observers over all spans.", "anchors": ["src/ics/timespan.py: Timespan.convert_end"]}
{"id": "C21", "title": "make_all_day yields the smallest covering run of whole days", "statement": "Turning a span into an all-day one gives a floating span that starts and ends at midnight, covers the original wall-clock span, lasts at least one day, exceeds the original by less than one day at each end, and a second application changes nothing.", "quantifier": "every valid span with begin and end in one zone or floating; separately: spans with begin and end in different zones", "why_tests_cant": "Rounding boundaries (exactly midnight, zero length, one microsecond past midnight) over all values.", "anchors": ["src/ics/timespan.py: Timespan.make_all_day", "src/ics/utils.py: floor_datetime_to_midnight, ceil_datetime_to_midnight"]}
{"id": "C22", "title": "Rounding helpers are tight", "statement": "floor_datetime_to_midnight gives the last midnight not after the value and ceil_datetime_to_midnight the first midnight not before it, in the same timezone; the timedelta helpers round to whole days likewise, also for negative durations.", "quantifier": "every datetime / timedelta", "why_tests_cant": "Off-by-one at exact midnights and negative durations over all values.", "anchors": ["src/ics/utils.py: floor_datetime_to_midnight, ceil_datetime_to_midnight, floor_timedelta_to_days, ceil_timedelta_to_days"]}
{"id": "C23", "title": "Interval predicates agree with each other", "statement": "intersects is symmetric, is_included_in is the converse of includes, includes is transitive, a span includes only spans that it also intersects, and starts_within/ends_within hold exactly when the instant of the other span's definition lies in the half-open interval.", "quantifier": "every pair/triple of spans with begin", "why_tests_cant": "Relational laws over all pairs and triples including zero-length and touching spans.", "anchors": ["src/ics/timespan.py: Timespan.starts_within, ends_within, intersects, includes, is_included_in"]}
{"id": "C24", "title": "Interval predicates match half-open interval semantics", "statement": "Since a span does not contain its end instant, two non-empty spans intersect exactly when they share an instant, and a span includes another exactly when it contains all its instants (in particular itself).", "quantifier": "every pair of spans with begin", "why_tests_cant": "Set-theoretic meaning over all pairs; touching boundaries are easily forgotten in tests.", "anchors": ["src/ics/timespan.py: Timespan.intersects, includes"]}
{"id": "C25", "title": "Ordering of events is a consistent weak order", "statement": "<, <=, > and >= on events and spans are mutually consistent, < is irreflexive and transitive, and incomparability is transitive, so sorting is well defined; whether a span is given by end or by duration does not matter. == is finer: it compares class, begin, end, duration and precision as given, for entries the summary and all the rest, too.", "quantifier": "every triple of spans over zones whose offset is constant; separately: all zones", "why_tests_cant": "Order axioms quantify over triples of arbitrary zoned datetimes; Python compares same-zone datetimes by wall clock and others by instant.", "anchors": ["src/ics/timespan.py: Timespan.cmp_tuple, __lt__, __le__, __gt__, __ge__", "src/ics/event.py: CalendarEntryAttrs.cmp_tuple"]}
{"id": "C26", "title": "Timeline iteration is complete and chronological", "statement": "Iterating a calendar's timeline yields every event that has a begin exactly once, no others, in non-decreasing (begin, end) order.", "quantifier": "every list of events", "why_tests_cant": "The heap based merge must be right for each list length and permutation; sortedness and permutation are properties over all lists.", "anchors": ["src/ics/timeline.py: Timeline.iterator, Timeline.__iter__"]}
{"id": "C27", "title": "Timeline queries are order-preserving filters", "statement": "included(), overlapping(), start_after() and at() yield exactly those events of the timeline satisfying the respective predicate, in timeline order, each as often as it occurs.", "quantifier": "every list of events and every query range", "why_tests_cant": "Soundness and completeness for each range and event list.", "anchors": ["src/ics/timeline.py: Timeline.included, overlapping, start_after, at"]}
{"id": "C28", "title": "Timeline.on(day) returns the events of that day", "statement": "on(day) yields exactly the events that share at least one instant with the half-open calendar day of the given moment.", "quantifier": "every event and every instant, every microsecond of the day", "why_tests_cant": "Day borders and the last second of a day are single points in a continuum that tests do not hit.", "anchors": ["src/ics/timeline.py: Timeline.on", "src/ics/timespan.py: Timespan.intersects"]}
{"id": "C29", "title": "A VTIMEZONE offset lookup picks the observance in force", "statement": "For every wall time, the offset reported by a parsed timezone is that of the observance whose latest onset not after the time is the most recent one (the first such on ties); before any onset it is the first standard observance, else the first observance.", "quantifier": "every list of observances with arbitrary onset sets and every wall time", "why_tests_cant": "Arbitrary many overlapping rules, arbitrary onset sets, all instants.", "anchors": ["src/ics/timezone/__init__.py: Timezone._find_observance, _find_observance_cachable, utcoffset, tzname, dst"]}
{"id": "C30", "title": "Timezone lookups do not depend on earlier lookups", "statement": "The offset reported for a datetime is a function of that datetime only, whatever lookups were made before and whatever the internal cache holds.", "quantifier": "every finite history of lookups, including cache evictions and both values of fold", "why_tests_cant": "Requires all histories against a stateful cache; a test resets or does not reach the interfering history.", "anchors": ["src/ics/timezone/__init__.py: Timezone._find_observance, lru_cache in __attrs_post_init__"]}
{"id": "C31", "title": "Unknown content is kept", "statement": "Reading a component and writing it again keeps every property and sub-component the library does not know, unchanged, with its parameters, and in the original relative order, after the known ones.", "quantifier": "every component container with arbitrary unknown lines interleaved anywhere", "why_tests_cant": "Arbitrary interleavings and multiplicities; loss shows only for the combination that was not tested.", "anchors": ["src/ics/converter/component.py: ComponentMeta.populate_instance, _populate_attrs, _serialize_attrs", "src/ics/component.py: Component.extra"]}
{"id": "C32", "title": "Multi-valued properties keep their values and line grouping", "statement": "Reading any number of lines of a multi-valued TEXT property (such as CATEGORIES), each with any number of values and parameters, and writing them again gives the same values in the same order on the same lines with the same parameters. A list changed after reading can still be written.", "quantifier": "every sequence of lines of the property; every later modification of the value list", "why_tests_cant": "Grouping is reconstructed from bookkeeping kept beside the values; all sequences of lines and edits matter.", "anchors": ["src/ics/converter/value.py: AttributeValueConverter.populate, serialize, __serialize_multi", "src/ics/converter/base.py: AttributeConverter.set_or_append_value, set_or_append_extra_params, get_extra_params"]}
{"id": "C33", "title": "An event's time span survives writing and reading", "statement": "Writing the time span of an event to DTSTART/DTEND/DURATION lines and reading these lines back gives an equal span, with the same precision and end representation, and all extra parameters on these lines are kept.", "quantifier": "every valid span with whole-second values in years >= 1000, floating, UTC or zoned", "why_tests_cant": "All combinations of precision, representation and zone with all values.", "anchors": ["src/ics/converter/types/timespan.py: TimespanConverter.populate, post_populate, serialize"]}
{"id": "C34", "title": "Opening one calendar is strict about there being one", "statement": "Building a Calendar from text succeeds only if the text holds exactly one calendar; zero or several raise ValueError; parse_multiple returns as many calendars as there are, in order.", "quantifier": "every parsed stream of containers", "why_tests_cant": "Streams of any length, with errors at any position.", "anchors": ["src/ics/icalendar.py: Calendar.__init__, Calendar.parse_multiple", "src/ics/utils.py: one", "src/ics/contentline/__init__.py: string_to_container, lines_to_container"]}
{"id": "C35", "title": "Cloning gives an equal, independent object", "statement": "clone() of a component is equal to the original including its unknown properties; a deep clone of a container shares no mutable part with the original at any depth.", "quantifier": "every component / every container tree", "why_tests_cant": "Aliasing appears at arbitrary depth and only under later mutation.", "anchors": ["src/ics/component.py: Component.clone", "src/ics/contentline/container.py: Container.clone, ContentLine.clone"]}
{"id": "C36", "title": "A container only ever holds content lines and containers", "statement": "After any sequence of list operations on a container (append, insert, extend, item and slice assignment, deletion, pop, remove, reverse, clear), each item is a content line or container, and an operation rejected with TypeError leaves it unchanged.", "quantifier": "every history of operations with arbitrary arguments", "why_tests_cant": "Invariant over unbounded histories including failing operations.", "anchors": ["src/ics/contentline/container.py: Container.check_items, append, insert, extend, __setitem__"]}
{"id": "C37", "title": "The wrap width is restored when a scope ends", "statement": "After leaving any properly nested arrangement of contentline_set_wrap scopes, normally or through an exception, the global wrap width is what it was before; the same for the uid/dtstamp factories replaced by deterministic_event_data.", "quantifier": "every nesting of scopes and every point at which an exception may be raised; separately: overlapping scopes of two threads", "why_tests_cant": "All nestings, crash points and interleavings.", "anchors": ["src/ics/contentline/container.py: contentline_set_wrap", "src/ics/event.py: deterministic_event_data"]}
{"id": "C38", "title": "Assignment validation is independent of history", "statement": "Assigning to an attribute of a component applies that attribute's converter and validator whatever instances of whatever classes were used before; a rejected value leaves the attribute unchanged; so status, percent, priority, dtstamp etc. always satisfy their constraints.", "quantifier": "every history of instance creations and assignments over any class hierarchy", "why_tests_cant": "The library caches the attribute table on the class on first use; only some histories expose inheritance of a stale cache.", "anchors": ["src/ics/types.py: RuntimeAttrValidation.__setattr__, __attrs_post_init__", "src/ics/todo.py: TodoAttrs.percent, priority", "src/ics/event.py: CalendarEntryAttrs.status"]}
{"id": "C39", "title": "Timezone normalisation does what was asked and is idempotent", "statement": "Normalising a value leaves it unchanged unless its class (floating / with timezone) was selected; replacing keeps the wall clock, converting keeps the instant, and normalising twice equals normalising once. Normalising a calendar keeps the number, order and all other data of its entries and leaves all-day entries alone.", "quantifier": "every datetime, span or calendar and every normalisation setting", "why_tests_cant": "Eight settings times all values and zones.", "anchors": ["src/ics/timespan.py: Normalization.normalize, Timespan.replace_timezone, Timespan.convert_timezone", "src/ics/icalendar.py: Calendar.normalize"]}
{"id": "C40", "title": "BOOLEAN and INTEGER values survive writing and reading", "statement": "Writing any boolean or any integer and reading it back gives the same value; BOOLEAN reading ignores case and accepts nothing but TRUE and FALSE. A text is read as an integer exactly when it is an optional sign and groups of digits joined by single underscores, with blanks around, and then as that number.", "quantifier": "every boolean, every integer of any size, every ASCII string", "why_tests_cant": "Unbounded integers and all strings.", "anchors": ["src/ics/valuetype/generic.py: BooleanConverter, IntegerConverter"]}
{"id": "C41", "title": "BINARY values survive writing and reading", "statement": "Writing any byte string as BINARY and reading it back gives the same bytes, and the written form only has base64 characters. Of any text, the base64 characters up to the first complete padding are decoded, other characters and stray padding signs are skipped, and a text whose last group is incomplete and unpadded is rejected.", "quantifier": "every byte string", "why_tests_cant": "All lengths modulo three and all byte values.", "anchors": ["src/ics/valuetype/generic.py: BinaryConverter"]}
{"id": "C42", "title": "Person attributes behave like independent fields", "statement": "Setting one attribute of an organizer or attendee (common_name, role, rsvp, ...) makes exactly that attribute read as the set value, leaves all others unchanged, deleting it makes it read as its default, and all survive writing and reading of the person line.", "quantifier": "every person state, attribute and value; every history of sets and deletes", "why_tests_cant": "All histories over shared underlying parameter storage.", "anchors": ["src/ics/attendee.py: PersonProperty, PersonMultiProperty, Person", "src/ics/valuetype/special.py: PersonConverter"]}
{"id": "C43", "title": "Every timezone reference in a written calendar is defined", "statement": "In the written form of a calendar, every TZID used on a property is defined by exactly one VTIMEZONE of that calendar, written before the events and todos, and it is the zone the value had.", "quantifier": "every calendar and every assignment of zones to values", "why_tests_cant": "All combinations of zones over all events and todos, including distinct zones with equal identifiers.", "anchors": ["src/ics/converter/types/calendar.py: CalendarMeta, CalendarTimezoneConverter", "src/ics/valuetype/datetime.py: DatetimeConverterMixin._serialize_dt"]}
{"id": "C44", "title": "Every alarm can be read back", "statement": "Every alarm written by the library is read back as an alarm of the same kind with the same action.", "quantifier": "every alarm kind and every action text", "why_tests_cant": "All action strings of custom alarms.", "anchors": ["src/ics/alarm.py: get_type_from_action, CustomAlarm", "src/ics/converter/types/various.py: AlarmActionConverter, AlarmMeta"]}
{"id": "C45", "title": "An event survives writing and reading", "statement": "Writing an event to a container and reading it back gives an equal event (all attributes, unknown properties and extra parameters).", "quantifier": "every event with storable values", "why_tests_cant": "Product of all attribute values with all unknown content; only proofs cover the product.", "anchors": ["src/ics/event.py: Event", "src/ics/converter/component.py: ComponentMeta", "src/ics/converter/value.py: AttributeValueConverter"]}
{"id": "C46", "title": "A calendar survives writing to text and reading the text", "statement": "Calendar(cal.serialize()) equals cal for every calendar of storable events, and the concatenation of the pieces from iterating the calendar equals serialize().", "quantifier": "every calendar, every wrap width, every word-boundary choice", "why_tests_cant": "End-to-end composition over all layers for all calendars.", "anchors": ["src/ics/icalendar.py: Calendar.serialize, Calendar.__iter__, Calendar.serialize_iter", "src/ics/converter/types/calendar.py: CalendarMeta"]}
{"id": "C47", "title": "TIME and PERIOD values survive writing and reading", "statement": "Writing a time of day with whole seconds and reading it back gives the same time, a UTC time is written in the UTC form, and every PERIOD the library writes is accepted and denotes the same span when read back.", "quantifier": "every time of day, every time span with a begin, every zone registry", "why_tests_cant": "the claim is over all spans and all zone registries, and the repository has no round-trip test for these two types", "anchors": ["src/ics/valuetype/datetime.py: TimeConverterClass, PeriodConverterClass, DatetimeConverterMixin"]}
{"id": "C48", "title": "Attributes only ever hold valid values", "statement": "After any sequence of assignments and method calls on an event or todo, successful or failing, status is unset or one of TENTATIVE/CONFIRMED/CANCELLED, created and last_modified are unset or in UTC, dtstamp is set and in UTC, list attributes are lists, an organizer is an Organizer, percent is unset or 0..100 and priority unset or 0..9.", "quantifier": "every construction and every finite history of operations with arbitrary arguments", "why_tests_cant": "tests try a few assignments; the claim is over all histories and all argument values", "anchors": ["src/ics/types.py: RuntimeAttrValidation.__setattr__", "src/ics/event.py: CalendarEntryAttrs, EventAttrs", "src/ics/todo.py: TodoAttrs"]}
{"id": "C49", "title": "Recurrence sets survive writing and reading", "statement": "Writing the recurrence set of an observance as RRULE, EXRULE, RDATE, EXDATE and DTSTART lines and reading them back gives a set with the same rules, exclusions and times.", "quantifier": "every recurrence set, every reader of rules and dates", "why_tests_cant": "the claim is over all sets of rules and dates, including empty ones and starts that are no occurrence", "anchors": ["src/ics/converter/types/various.py: RecurrenceConverter", "src/ics/rrule.py: rrule_to_ContentLine"]}
{"id": "C50", "title": "Time zone definitions survive writing and reading", "statement": "Writing a Timezone as VTIMEZONE and reading it back, from any equal container or from its text, gives the same identifier, observances, URL, modification time, extra lines and parameters, and a zone that answers every lookup of utcoffset, dst and tzname in the same way.", "quantifier": "every time zone, every history of lookups, every wrapping of the text", "why_tests_cant": "tests load a few zones; the claim is over all definitions and all lookup histories", "anchors": ["src/ics/timezone/__init__.py: Timezone, TimezoneObservance", "src/ics/converter/types/timezone.py: TimezoneObservanceMemberMeta", "src/ics/converter/component.py: ImmutableComponentMeta", "src/ics/converter/value.py: AttributeValueConverter"]}
{"id": "C51", "title": "Written observances state their start", "statement": "Every STANDARD or DAYLIGHT component that is written has exactly one DTSTART (RFC 5545, 3.6.5), the common start of its rules, and an observance that was read can always be written again.", "quantifier": "every observance", "why_tests_cant": "the claim is over all recurrence sets; zones without daylight saving time violate it", "anchors": ["src/ics/converter/types/various.py: RecurrenceConverter.serialize"]}
{"id": "C52", "title": "The order of different properties does not matter", "statement": "Two containers that differ only in the order of items of different names (keeping the order within each name, within the unknown items, and between DTEND and DUE), at every level of nesting, are both rejected or read as equal components: same attributes, members, parameters and unknown content.", "quantifier": "all containers of alarms, events, todos and calendars, and all such rearrangements of their items, also inside sub-components", "why_tests_cant": "the number of orders is factorial in the number of lines; tests use one order", "anchors": ["src/ics/converter/component.py: ComponentMeta._populate_attrs", "src/ics/converter/value.py: AttributeValueConverter.populate", "src/ics/converter/types/timespan.py: TimespanConverter.populate", "src/ics/converter/types/calendar.py: CalendarMeta._populate_attrs"]}
{"id": "C53", "title": "What is read is what the lines say", "statement": "A component that is read has exactly the values its lines state: each single-valued property at most one line, of a value type the property allows, the attribute being the value the text denotes; each multi-valued property the values of all its lines in order; the span from DTSTART, DTEND/DUE and DURATION with one precision and valid; the class of an alarm from ACTION; the members from the sub-components; the unknown items as extra; left-over parameters under the attribute; nothing else. Such a component is unique.", "quantifier": "all containers of alarms, events, todos and calendars", "why_tests_cant": "every property of every component with every combination of lines, types, parameters and texts", "anchors": ["src/ics/converter/component.py: ComponentMeta.populate_instance", "src/ics/converter/value.py: AttributeValueConverter.populate", "src/ics/converter/value.py: AttributeValueConverter.__prepare_params", "src/ics/converter/types/timespan.py: TimespanConverter.populate", "src/ics/converter/types/calendar.py: CalendarMeta._populate_attrs", "src/ics/converter/types/various.py: AlarmConverter"]}
{"id": "C54", "title": "Everything that fits is read", "statement": "If the lines of a container state a component (every property fits its description, see C53), then reading does not fail and yields that component.", "quantifier": "all containers of alarms, events, todos and calendars", "why_tests_cant": "absence of spurious rejections over all valid containers", "anchors": ["src/ics/converter/component.py: ComponentMeta.populate_instance", "src/ics/converter/value.py: AttributeValueConverter.populate", "src/ics/converter/value.py: AttributeValueConverter.__prepare_params", "src/ics/converter/types/timespan.py: TimespanConverter.populate", "src/ics/converter/types/calendar.py: CalendarMeta._populate_attrs", "src/ics/converter/types/various.py: AlarmConverter"]}
{"id": "C55", "title": "Removing extra content removes exactly that and keeps the rest writable", "statement": "strip_extras fails (ValueError) exactly if nothing is asked for; otherwise it removes exactly the unknown items, the remembered parameters or the markers that join values, as asked, and nothing else; doing it twice is doing it once. A component that could be written before can be written afterwards: the same lines with the same values, without the unknown items if those were removed, with one line per value if markers or parameters were removed, and with only the parameters that the values themselves need if parameters were removed.", "quantifier": "every alarm, event, todo and calendar, with all attributes and remembered parameters, and every combination of options", "why_tests_cant": "all combinations of options, attributes, markers and parameters", "anchors": ["src/ics/component.py: Component.strip_extras", "src/ics/converter/value.py: AttributeValueConverter.serialize"]}
{"id": "C56", "title": "Zone objects of other libraries become definitions with the same offset", "statement": "Making a time zone definition of a tzinfo object with one offset yields a zone that has this offset and no daylight saving time at all times, under the name of the object, and it still does after being written as a VTIMEZONE and read from the text. Datetimes in such zones, any number of them written with one table of zones, are read back as the same instants, provided that no text of an object calls it UTC where it is not, that names are not empty and that objects with the same name have the same offset (which holds for datetime.timezone objects without a name of their own). Objects with the name of a zone get the definition in the file of that name or of what a Windows name stands for; the zone of the computer and no other has no definition; everything else is a ValueError. The context makes no difference.", "quantifier": "all tzinfo objects of the modelled kinds, all offsets and names, all data bases, all lookups after all histories, all lists of datetimes, all contexts", "why_tests_cant": "unboundedly many offsets, names, orders of writing and lookups", "anchors": ["src/ics/timezone/converters.py: Timezone_from_tzinfo", "src/ics/timezone/converters.py: Timezone_from_tzid", "src/ics/timezone/converters.py: Timezone_from_offset", "src/ics/timezone/converters.py: Timezone_from_builtin", "src/ics/timezone/converters.py: Timezone_from_dateutil", "src/ics/timezone/converters.py: Timezone_from_pytz", "src/ics/timezone/__init__.py: is_utc", "src/ics/timezone/__init__.py: Timezone.to_builtin", "src/ics/valuetype/datetime.py: DatetimeConverterMixin._serialize_dt"]}
{"id": "C57", "title": "Converters are found from the declarations of the attributes", "statement": "For every declared attribute that takes part, the converter found from its type, default value and metadata is the one registered for its classes, in the order of the declaration, under the property name made from the attribute name (or the name given), required exactly if there is no default; types without a converter are errors. The converters of a class are in the only order with falling priority that keeps the declared order among equals, a name is looked up to exactly the converters that answer to it, and for every component class the result is the table by which the class is read and written.", "quantifier": "all declarations, all types, all lists of registrations and converters, all names; the tables for all modelled component classes", "why_tests_cant": "unboundedly many declarations, types and priorities", "anchors": ["src/ics/converter/base.py: AttributeConverter.get_converter_for", "src/ics/converter/base.py: unwrap_type", "src/ics/converter/base.py: sort_converters", "src/ics/converter/value.py: AttributeValueConverter", "src/ics/converter/component.py: ComponentMeta.find_converters", "src/ics/converter/types/various.py: AlarmMeta.find_converters", "src/ics/converter/types/calendar.py: CalendarMeta.find_converters", "src/ics/valuetype/base.py: ValueConverter", "src/ics/event.py: CalendarEntryAttrs", "src/ics/icalendar.py: CalendarAttrs"]}
{"id": "C58", "title": "Components are written in a fixed order and under fixed names", "statement": "Every alarm, event, todo and calendar is written attribute by attribute in the order of its class, one line for a single value that is there, at least one and at most as many lines as values for a list, one component for each member, and last what was not understood; a calendar begins with VERSION and PRODID, followed by SCALE, METHOD, its time zones, events and todos. Properties stand before components exactly if an event has no alarms or nothing after them, and, for calendars with events or todos, if nothing but components was not understood. The classification, transparency, percentage and scale are written and read under names other than those of RFC 5545, whose lines are only kept.", "quantifier": "all components with all values, members and unknown items, all external functions", "why_tests_cant": "unboundedly many combinations of attributes and members", "anchors": ["src/ics/converter/component.py: ComponentMeta.serialize_toplevel", "src/ics/converter/types/calendar.py: CalendarMeta._serialize_attrs", "src/ics/converter/value.py: AttributeValueConverter.serialize", "src/ics/converter/types/timespan.py: TimespanConverter.serialize", "src/ics/event.py: EventAttrs", "src/ics/todo.py: TodoAttrs", "src/ics/icalendar.py: CalendarAttrs"]}
{"id": "C59", "title": "What was read can be written and read again", "statement": "Every calendar that was read from a text, from lines or from a container can be written to a text, and reading that text gives an equal calendar: the same attributes, parameters, notes, unknown items, events, todos and alarms. Excepted are exactly named things that reading accepts and writing does not keep: parameters of DTEND, several persons on one line, alarms with another action, years before 1000, coordinates with more than six decimals, addresses that the address parser changes, zones that cannot be written.", "quantifier": "all texts, lines and containers that can be read, all widths and word boundaries, all external functions within stated conditions", "why_tests_cant": "unboundedly many texts; tests compare a handful of files", "anchors": ["src/ics/icalendar.py: Calendar.__init__", "src/ics/icalendar.py: Calendar.serialize", "src/ics/contentline/parser.py: ParserClass", "src/ics/contentline/container.py: ContentLine", "src/ics/converter/component.py: ComponentMeta", "src/ics/converter/value.py: AttributeValueConverter", "src/ics/converter/types/timespan.py: TimespanConverter", "src/ics/valuetype/datetime.py"]}
{"id": "C60", "title": "Reading into a component that already has contents", "statement": "Reading a container into a component that already has contents (component.populate, Calendar(imports, events=..., todos=...)) fails exactly if reading it into a new component fails, with the same error. Otherwise single values are replaced exactly if a line of their name occurs, list values, their parameters, unknown items, events, todos and alarms are added after the old ones, and the time span is replaced. Several containers can be read into one calendar, which then has the events and todos of all of them in order.", "quantifier": "all components with any contents, all containers, texts and lines, all lists of containers", "why_tests_cant": "the combinations of old contents and lines are unbounded; the tests only read into new components", "anchors": ["src/ics/component.py: Component.populate", "src/ics/component.py: Component.from_container", "src/ics/icalendar.py: Calendar.__init__", "src/ics/converter/component.py: ComponentMeta.populate_instance", "src/ics/converter/base.py: AttributeConverter.set_or_append_value", "src/ics/converter/base.py: AttributeConverter.set_or_append_extra_params"]}
{"id": "C61", "title": "Time zone definitions are read exactly as their lines say", "statement": "A VTIMEZONE container is read exactly if its lines and parts say what a zone needs: one TZID, at most one TZURL and LAST-MODIFIED, and observances with one TZOFFSETFROM and TZOFFSETTO, at most one TZNAME and COMMENT and at least one line of the recurrence set. The zone read then has exactly the values the lines have, the observances of both kinds in order, the recurrence set with the rules in order and each date once and sorted, DTSTART among them, and all unknown items in order. The order of lines of different names does not matter.", "quantifier": "all containers, all readers of rules and dates, all orders of the lines", "why_tests_cant": "the tests read a few zone definitions of the usual form; what is accepted, in which order and what becomes of the values is unbounded", "anchors": ["src/ics/timezone/__init__.py: Timezone", "src/ics/timezone/__init__.py: TimezoneObservance", "src/ics/converter/types/timezone.py: TimezoneMeta", "src/ics/converter/types/timezone.py: TimezoneObservanceMemberMeta", "src/ics/converter/types/various.py: RecurrenceConverter.populate", "src/ics/converter/types/various.py: RecurrenceConverter.post_populate", "src/ics/converter/value.py: AttributeValueConverter.populate"]}
{"id": "C62", "title": "Time zone definitions that were read can be written and read again", "statement": "A time zone definition that was read from a text or container can be written, and what is read from what was written has the same identifier, address, time of modification, unknown items and parameters and the same observances in order, with the same offsets, names, comments and rules. If observances with a rule have a DTSTART line, their recurrence sets are equal too. Required are offsets below 100 hours, dates with a written form, rules with one start and an address that is equal to the one read from its text.", "quantifier": "all texts and containers, all readers of rules and dates that keep to their contracts, all line widths", "why_tests_cant": "the tests compare a few zone definitions; which definitions change when they pass through the library depends on the unbounded set of texts that are read", "anchors": ["src/ics/timezone/__init__.py: Timezone", "src/ics/timezone/__init__.py: TimezoneObservance", "src/ics/converter/types/timezone.py: TimezoneMeta", "src/ics/converter/types/various.py: RecurrenceConverter.post_populate", "src/ics/converter/types/various.py: RecurrenceConverter.serialize", "src/ics/valuetype/base.py: ValueConverter"]}
{"id": "C63", "title": "Zones of a calendar come from its text and are kept", "statement": "Every zone a date of a read calendar has is UTC or belongs to an identifier that some line names: it is the first definition with that identifier in the calendar or, if there is none, the zone the library knows by it. A calendar in which every named identifier is defined can be written, and what is read from what was written is equal to it, with the same zones, whatever the zone database contains. With zones of the database this holds if different zones have different identifiers.", "quantifier": "all texts and containers, all zone databases, all readers of rules and dates that keep to their contracts, all line widths", "why_tests_cant": "which zone a date gets depends on all definitions in the calendar, wherever they stand, and on the database; tests use calendars with one or two zones", "anchors": ["src/ics/converter/types/calendar.py: CalendarMeta._populate_attrs", "src/ics/converter/types/calendar.py: CalendarMeta._serialize_attrs", "src/ics/valuetype/datetime.py: DatetimeConverterMixin._parse_dt", "src/ics/valuetype/datetime.py: DatetimeConverterMixin._serialize_dt", "src/ics/timezone/converters.py: Timezone_from_tzid", "src/ics/timezone/converters.py: Timezone_from_tzinfo"]}
{"id": "C64", "title": "Texts of spans and entries tell what they stand for", "statement": "str() of a time span is its kind, whether it is all-day or floating, its begin, effective end and length in the usual notation, and which of end and length was given; str() of an event or todo also has the summary. Two spans have the same text exactly if they show the same clock readings with the same offsets (days, if all-day); the summary can be told from the text of an entry whatever characters it has. Valid spans of one precision with the same text are equal unless a clock reading occurs twice.", "quantifier": "all spans and entries of the three kinds, all zone environments, all summaries", "why_tests_cant": "that no two different spans or summaries have the same text is about all pairs; a summary can contain anything, also text that looks like the rest", "anchors": ["src/ics/timespan.py: Timespan.get_str_segments", "src/ics/timespan.py: Timespan.__str__", "src/ics/event.py: CalendarEntryAttrs.__str__"]}
{"id": "C65", "title": "Equality, hash and text of recurrence rules and sets", "statement": "Two recurrence rules are equal exactly if they have the same parameters with equal values, whatever order they were given in; two sets exactly if they have equal rules, dates, exclusion rules and exclusion dates in order; both are equivalences. Equal rules and sets made in the same order have the same hash. The text of a set without dates has one line for each rule and exclusion rule, after the line of its start.", "quantifier": "all rules and sets, all value types, all hash functions", "why_tests_cant": "that no parameter is ignored and that equality is transitive is about all pairs and triples of rules; hashes of equal rules must agree for all of them", "anchors": ["src/ics/rrule.py: rrule_to_dict", "src/ics/rrule.py: rrule_eq", "src/ics/rrule.py: rrule_hash", "src/ics/rrule.py: rruleset_eq", "src/ics/rrule.py: rruleset_str", "src/ics/rrule.py: rruleset_hash"]}
{"id": "C66", "title": "The declared grammar of content lines is read and written", "statement": "Every line of the grammar declared by the patterns (RFC 5545) is read as its name, parameters and value, unless a parameter ends with an empty value, and passes the check of parsed lines; lines with identifiers as names and without controls are written in this grammar. With the check switched on exactly the lines are read whose names begin with a character of an identifier; other failures are ParseErrors.", "quantifier": "all texts, all lines", "why_tests_cant": "the grammar has infinitely many lines, and the parser finds its way by delimiter positions, not by the patterns", "anchors": ["src/ics/contentline/container.py: Patterns", "src/ics/contentline/container.py: QuotedParamValue.maybe_unquote", "src/ics/contentline/parser.py: ContentLineParser.check_parsed_line", "src/ics/contentline/parser.py: ContentLineParser.parse"]}
{"id": "C67", "title": "Equal calendars are written alike and writing is stable", "statement": "Calendars, events, todos and alarms that are equal (==) become equal containers with the same zones, or fail with the same error; their texts are the same unless parameter values are quoted needlessly. A calendar that was read, written and read again is written as an equal container, and as the same text if there are no needless quotes.", "quantifier": "all pairs of equal components, all texts, all external functions", "why_tests_cant": "that nothing but what equality compares influences the text is about all pairs of equal objects, with all values and parameters", "anchors": ["src/ics/converter/component.py: ComponentMeta.serialize_toplevel", "src/ics/converter/types/value.py: AttributeValueConverter.serialize", "src/ics/converter/types/timespan.py: TimespanConverter.serialize", "src/ics/contentline/container.py: ContentLine._serialize_iter_unwrapped"]}
{"id": "C68", "title": "UTC times are converted to a calendar's zone and back", "statement": "Converting a UTC time to a zone read from a VTIMEZONE gives the wall time with the offset of the observance in force at that instant, after any history of lookups, and converting it back gives the same UTC time, unless the clock was just set back; without the cache of lookups it would hold at all times.", "quantifier": "all observances with one standard offset, all onset sets written in order, all UTC times, all histories of lookups and conversions", "why_tests_cant": "instants, zones and earlier lookups are unbounded, and the errors depend on the order of lookups of the same reading", "anchors": ["src/ics/timezone/__init__.py: Timezone.utcoffset", "src/ics/timezone/__init__.py: Timezone.dst", "src/ics/timezone/__init__.py: Timezone._find_observance_cachable", "src/ics/timezone/__init__.py: Timezone.__attrs_post_init__"]}
{"id": "C69", "title": "Coordinates are two decimal numbers, read as the nearest doubles and written with six decimals", "statement": "The texts accepted as coordinates are exactly two numbers separated by a semicolon; each is read as the nearest double, ties to even, and written with the nearest six decimals; writing, reading and writing again gives the same text, and coordinates with at most six decimals are kept exactly.", "quantifier": "all texts, all 64-bit floats", "why_tests_cant": "texts and doubles are unbounded or too many, and rounding errors show only for rare combinations of digits", "anchors": ["src/ics/valuetype/special.py: GeoConverterClass.parse", "src/ics/valuetype/special.py: GeoConverterClass.serialize"]}
{"id": "C70", "title": "FLOAT values are written with the fewest digits that are read as the same double", "statement": "A FLOAT text is accepted exactly if it is the text of a number and is read as the nearest double; every double that is a number is read back bit for bit from what is written for it; what is written has the fewest digits possible, is the nearest of these, and has an exponent exactly below 0.0001 and from 10^16 on.", "quantifier": "all texts, all 64-bit floats", "why_tests_cant": "there are 2^64 doubles, and wrong digits show only next to powers of two and for rare roundings", "anchors": ["src/ics/valuetype/generic.py: FloatConverterClass.parse", "src/ics/valuetype/generic.py: FloatConverterClass.serialize"]}
{"id": "C71", "title": "What a failing populate leaves behind in a component", "statement": "When populate raises, nothing was changed if the name of the container is wrong or a VTIMEZONE cannot be read; otherwise exactly the items before the first one that cannot be read have been taken (single values replaced, lists and members extended, the time span not yet touched), and of that item only the values of a list before the bad one and the parameters that are stored before the value; or all items have been taken and a required property or a valid time span is missing. The component can be read into again as described by C60.", "quantifier": "all components that can be read into, all containers, all exceptions", "why_tests_cant": "the state after an exception depends on the property, on the place of the bad line and of the bad value in it, and on what was there before; tests check only that an exception is raised", "anchors": ["src/ics/component.py: Component.populate", "src/ics/converter/component.py: ComponentMeta._populate_attrs", "src/ics/converter/value.py: AttributeValueConverter.populate", "src/ics/converter/types/timespan.py: TimespanConverter.populate", "src/ics/converter/types/calendar.py: CalendarMeta._populate_attrs"]}
{"id": "C72", "title": "A container behaves as the list of its items", "statement": "Reading, assigning, deleting and popping with an int subscript speak of the same item, counted from the front or the back, and raise IndexError for no item; insert clips its index; a slice selects the positions start, start + step, ... before stop, reading it gives a new container of the same name, deleting it keeps exactly the others, assigning replaces the segment (step 1) or exactly as many items (else ValueError); a str subscript selects or deletes exactly the items of that name; remove, index, count and contains go by equality and take the first; reverse reverses.", "quantifier": "all lists of items, all subscripts and slices (any sign, any bound, any step), all notions of equality", "why_tests_cant": "the positions selected depend on signs and sizes of up to three numbers and the length of the list", "anchors": ["src/ics/contentline/container.py: Container.insert, append, extend, __getitem__, __delitem__, __setitem__", "src/ics/contentline/container.py: _wrap_list_func"]}
{"id": "C73", "title": "Predicates and operators between entries, spans and instants", "statement": "starts_within, ends_within, intersects, includes and is_included_in of an entry say the same as those of its span, whether they are given an entry or a span; includes takes a datetime, too, and nothing else does; <, <=, > and >= compare entries with entries and spans with spans by their sort keys and raise TypeError for any mixture.", "quantifier": "all entries, spans and datetimes over well-behaved clocks, all four operators and five predicates", "why_tests_cant": "each combination of classes is a different path, and each is about all instants", "anchors": ["src/ics/event.py: CalendarEntryAttrs.starts_within, ends_within, intersects, includes, is_included_in, __lt__, __gt__, __le__, __ge__", "src/ics/types.py: get_timespan_if_calendar_entry", "src/ics/timespan.py: Timespan.__contains__, __lt__"]}
{"id": "C74", "title": "What assigning to an attribute of an event or todo stores or refuses", "statement": "Every attribute of an event or todo takes exactly the values of its kind, stores them in the form of its kind (status in capitals, times in UTC, lists as new lists, positions as pairs) and refuses all others with one definite exception, leaving the object as it was; begin, end, due and duration replace the span by one that differs in that respect, if it is valid; read-only properties refuse everything. A point in time may be given as datetime, date, tuple or dict, a length of time as timedelta, tuple or dict, with the argument rules of the constructors. The constructors succeed exactly if every argument is taken and then hold what the attributes made of them.", "quantifier": "all reachable objects, all attribute names and all modelled values, all keyword arguments of the constructors", "why_tests_cant": "arbitrary names, values, nested tuples and dicts, and unbounded integers", "anchors": ["src/ics/event.py: CalendarEntryAttrs, EventAttrs, Event.__init__", "src/ics/todo.py: TodoAttrs, Todo.__init__", "src/ics/types.py: RuntimeAttrValidation.__setattr__", "src/ics/utils.py: ensure_datetime, ensure_timedelta", "src/ics/geo.py: make_geo", "src/ics/component.py: Component"]}
{"id": "C75", "title": "What is written is exactly what the attributes say, or a definite exception", "statement": "For every alarm, event, todo and calendar, what to_container produces is described property by property without reference to the writing loop: which line stands for which attribute, the first value type that fits and when VALUE names it, the text of every value (escapes, numbers, base64, rounded durations, dates, zones), the parameters, which values of a list share a line, the lines of a time span and of an alarm's action, the members in order, the zones in use once each, and the extra data; and every exception with its place in that order.", "quantifier": "all alarms, events, todos and calendars with arbitrary attributes, parameters, members and extra data; all zones collected before; all zone databases and external functions", "why_tests_cant": "arbitrary values of arbitrary types in every attribute, lists and parameters of any length, and the order in which failures are met", "anchors": ["src/ics/converter/component.py: ComponentMeta.serialize_toplevel, _serialize_attrs", "src/ics/converter/value.py: AttributeValueConverter.serialize, __serialize_multi, __find_value_converter", "src/ics/converter/types/timespan.py: TimespanConverter.serialize", "src/ics/converter/types/various.py: AlarmActionConverter.serialize", "src/ics/converter/types/calendar.py: CalendarMeta._serialize_attrs", "src/ics/valuetype/datetime.py: serialize", "src/ics/valuetype/generic.py: serialize", "src/ics/valuetype/special.py: serialize"]}
{"id": "C76", "title": "Which time spans are accepted, and exactly what each operation on a span gives", "statement": "A span is accepted exactly when: an all-day span begins and ends at floating midnights and lasts at least a day; an end does not precede the begin and both are floating or both zoned; a length is a whole number of days or seconds up to half a second; a duration needs a begin, is not negative and excludes an end; an event's end needs a begin. Every other span is refused, with TypeError, OverflowError or KeyError in exactly the stated cases and ValueError otherwise. The effective end and duration, convert_end for every target, replace_timezone, convert_timezone and make_all_day give exactly the described span or exception.", "quantifier": "all spans of the three classes with arbitrary begin, end, duration and precision; all targets; all zones and all answers of zone objects", "why_tests_cant": "every combination of present fields, zones and precisions with unbounded clocks and lengths, and the order in which checks are met", "anchors": ["src/ics/timespan.py: Timespan.validate, EventTimespan.validate", "src/ics/timespan.py: Timespan.replace, replace_timezone, convert_timezone", "src/ics/timespan.py: make_all_day, convert_end, get_effective_end, get_effective_duration", "src/ics/utils.py: floor_datetime_to_midnight, ceil_datetime_to_midnight, timedelta_nearly_zero"]}
{"id": "C77", "title": "Converters called without parameters or context: EmptyDict takes nothing, and a zone is not told", "statement": "EmptyDict answers None for every key whatever the default, ignores every change and has no items, through any sequence of dict operations; a parameter dict does what a dict does. With a parameter dict the converters are those of the other properties. Without parameters, serializing a time gives the same text with the zone left out, a named zone without a context fails with AttributeError, reading gives floating or UTC times only, a period is refused exactly when its end has a named zone, and persons neither lose nor gain extra parameters.", "quantifier": "all sequences of mapping operations, all times, periods and texts, all zones and zone answers, with and without context", "why_tests_cant": "unbounded sequences of operations and all zone objects; the tests always pass parameters and context", "anchors": ["src/ics/types.py: EmptyDictType, copy_extra_params", "src/ics/valuetype/datetime.py: _serialize_dt, _parse_dt, PeriodConverterClass", "src/ics/valuetype/special.py: PersonConverter"]}
{"id": "C78", "title": "UTC offsets and durations written from float seconds", "statement": "total_seconds() is a double, and hours, minutes and seconds of an offset are taken from it with float // and %, each step rounding. For every timedelta the text written for an offset has exactly the hours, minutes and seconds of the one double nearest to its seconds, with the sign of the timedelta, and the seconds of a duration are the whole part of that double. Below 2**34 seconds the text is the one computed with integers, so every offset below 100 hours is read back up to its fraction of a second.", "quantifier": "all timedeltas", "why_tests_cant": "about 1.7e20 timedeltas; rounding shows only for few of them, far from the values in use", "anchors": ["src/ics/valuetype/datetime.py: UTCOffsetConverter.serialize, DurationConverter.serialize"]}
