{"id": "C01", "title": "A timeboard covers exactly the requested range with whole base units", "statement": "A timeboard built for base unit frequency f (any supported calendar frequency, with or without a multiplier) from `start` to `end` has as its first base unit the calendar period of f that contains `start`; its units follow each other without gaps or overlaps, each starting one tick after the previous one ends; the last unit starts no later than the calendar unit containing `end` and the timeboard's end_time is not before `end` . Construction raises VoidIntervalError exactly when the unit of `end` precedes the unit of `start`.", "quantifier": "for every frequency, multiplier and every pair of instants start, end", "why_tests_cant": "Ranges, calendars (leap years, month lengths) and multipliers form an unbounded space; tests check a handful of dates.", "anchors": ["timeboard/core.py:_Frame.__new__", "timeboard/core.py:_Frame.start_time", "timeboard/core.py:_Frame.end_time", "timeboard/timeboard.py:Timeboard.__init__"]}
{"id": "C02", "title": "A point in time belongs to exactly one workshift and lookup finds it", "statement": "get_workshift(t) succeeds if and only if start_time <= t <= end_time of the timeboard, and then it returns the one and only workshift with ws.start_time <= t <= ws.end_time; otherwise it raises OutOfBoundsError.", "quantifier": "for every timeboard (any frequency, layout, amendments) and every instant t", "why_tests_cant": "Needs every instant, including both edges of every unit, on every layout; tests probe a few dates.", "anchors": ["timeboard/core.py:_Frame.get_loc", "timeboard/core.py:_Timeline.get_ws_position", "timeboard/timeboard.py:Timeboard._locate", "timeboard/timeboard.py:Timeboard.get_workshift"]}
{"id": "C03", "title": "Workshifts tile the timeboard", "statement": "Whatever the layout, the workshifts of a timeboard cover it completely and disjointly: the first one starts at tb.start_time, each next one starts one tick after the previous one's end_time, the last one ends at tb.end_time; every duration is at least one base unit and the durations add up to the number of base units.", "quantifier": "for every frequency, range and every (arbitrarily nested) layout for which construction succeeds", "why_tests_cant": "Layouts are recursive trees of organizers; no test suite enumerates them.", "anchors": ["timeboard/core.py:_Timeline.__init__", "timeboard/core.py:_Timeline.__organize", "timeboard/core.py:_Timeline.get_ws_start_time", "timeboard/core.py:_Timeline.get_ws_end_time", "timeboard/core.py:_Timeline.get_ws_duration"]}
{"id": "C04", "title": "A workshift's own times lead back to it", "statement": "For every workshift ws of a timeboard, get_workshift(ws.start_time), get_workshift(ws.end_time) and get_workshift(ws.to_timestamp()) all return ws itself, with either setting of workshift_ref.", "quantifier": "for every timeboard, every workshift, both workshift_ref settings", "why_tests_cant": "Round trip over all workshifts of all timeboards.", "anchors": ["timeboard/workshift.py:Workshift.to_timestamp", "timeboard/core.py:_Timeline.get_ws_ref_time", "timeboard/timeboard.py:Timeboard.get_workshift"]}
{"id": "C05", "title": "Explicit marks cut the timeline exactly at the base units they fall in", "statement": "With Organizer(marks=M), a new span starts at a base unit (other than the first one of the span being divided) if and only if some mark of M falls anywhere within that base unit; marks outside, duplicated or in the first unit change nothing; the order of M is irrelevant; the spans are non-empty, in order, disjoint and cover the divided span; dividing a span that is not within the frame is refused with OutOfBoundsError, and one that ends before it starts with VoidIntervalError.", "quantifier": "for every frame, every span and every list of marks", "why_tests_cant": "A mark may fall at any instant within any unit, in particular the last one; tests only use unit starts at the edges.", "anchors": ["timeboard/core.py:_Frame.partition_at_marks", "timeboard/core.py:_Frame._locate_subspans", "timeboard/core.py:_Frame.get_loc_vectorized"]}
{"id": "C06", "title": "A calendar marker cuts the timeline exactly at period boundaries", "statement": "With a marker naming an accepted calendar frequency and no `at`, two neighbouring base units are put into different spans if and only if they lie in different calendar periods of that frequency; and the first span is told exactly how many base units of its calendar period lie before the timeboard (or the parent span).", "quantifier": "for every frame, span, and accepted unmultiplied frequency pair", "why_tests_cant": "Depends on alignment of arbitrary range starts with weeks/months/quarters/years.", "anchors": ["timeboard/core.py:_Frame.partition_with_marker", "timeboard/core.py:_check_groupby_freq"]}
{"id": "C07", "title": "Patterns are aligned with the calendar, even on a truncated first period", "statement": "With layout Organizer(marker=p, structure=[pat]) (e.g. weekly [1,1,1,1,1,0,0] on days) the label of every base unit is pat[k mod len(pat)], where k is the number of base units between the start of the calendar period of p containing the unit and the unit itself - independently of where the timeboard starts or ends.", "quantifier": "for every accepted frequency pair, range, non-empty pattern and base unit", "why_tests_cant": "Every start date relative to every period; tests fix a few.", "anchors": ["timeboard/core.py:_Timeline.__apply_pattern", "timeboard/core.py:_skiperator", "timeboard/core.py:_Frame.partition_with_marker"]}
{"id": "C08", "title": "A bare pattern layout cycles from the first base unit", "statement": "Timeboard(layout=pattern) gives base unit number i the label pattern[i mod len(pattern)], every workshift being one base unit; an empty pattern leaves the default label everywhere.", "quantifier": "for every range and pattern", "why_tests_cant": "All lengths and ranges.", "anchors": ["timeboard/timeboard.py:Timeboard.__init__", "timeboard/core.py:_Timeline.__apply_pattern"]}
{"id": "C09", "title": "Nested organizers: every base unit is labelled by the structure element responsible for its span, and nothing else", "statement": "For any nested layout, the label (and the membership in a compound workshift) of a base unit is the one obtained by descending the organizer tree: at each level the unit lies in the j-th span and structure[j mod len(structure)] alone decides; siblings never affect one another and a subordinate organizer never changes anything outside its span.", "quantifier": "for every organizer tree of any depth, every frame, every base unit", "why_tests_cant": "Interactions between sub-organizers writing into one shared array of labels; unbounded trees.", "anchors": ["timeboard/core.py:_Timeline.__organize", "timeboard/core.py:Organizer"]}
{"id": "C10", "title": "Compound workshifts", "statement": "If structure is made of plain labels, each span becomes exactly one workshift that carries the respective label structure[j mod len] and its duration is the number of base units in the span.", "quantifier": "for every frame, divider and list of labels", "why_tests_cant": "All partitions.", "anchors": ["timeboard/core.py:_Timeline.__organize"]}
{"id": "C11", "title": "An empty structure or pattern leaves default labels and unit workshifts", "statement": "If structure is empty no organizing occurs: every workshift is one base unit with the default label; a span whose pattern is empty retains the default label and unit workshifts.", "quantifier": "for every frame, marks list, default label", "why_tests_cant": "StopIteration handling across spans.", "anchors": ["timeboard/core.py:_Timeline.__organize", "timeboard/core.py:_Timeline.__apply_pattern"]}
{"id": "C12", "title": "A remembering pattern hands out its cycle without loss or repetition", "statement": "The labels delivered by a RememberingPattern over its whole life - through all spans, nested organizers and timeboards it is used in, in order of use - are consecutive elements of the endless cycle of its labels; what one use leaves off is where the next one resumes. An attempt to make a timeboard that ends with an exception takes the labels of the uses up to the exception, and no others; the next use resumes after them.", "quantifier": "for every sequence of uses (history) of the same pattern object, including attempts that raise exceptions", "why_tests_cant": "Stateful object shared across spans and timeboards; needs every history.", "anchors": ["timeboard/core.py:RememberingPattern", "timeboard/core.py:_skiperator", "timeboard/core.py:_Timeline.__apply_pattern"]}
{"id": "C13", "title": "An accepted marker frequency never splits a base unit", "statement": "Whenever the library accepts frequency g for grouping base units of frequency f, no base unit of f overlaps two calendar periods of g; otherwise the organizer raises UnacceptablePeriodError.", "quantifier": "for every pair of frequency strings of the supported families, with multipliers, and every base unit on the calendar", "why_tests_cant": "The calendar is infinite; a clash (e.g. week vs month) only shows up at particular dates.", "anchors": ["timeboard/core.py:_check_groupby_freq", "timeboard/core.py:get_freq_delta"]}
{"id": "C14", "title": "Amendments override exactly the workshifts they name", "statement": "After construction with amendments A, the label of a workshift is A[k] if key k falls within the workshift, and the layout's label otherwise; keys outside the timeboard are ignored; workshift boundaries are unaffected.", "quantifier": "for every timeboard, every amendments mapping with at most one key per workshift", "why_tests_cant": "All key placements.", "anchors": ["timeboard/core.py:_Timeline.amend", "timeboard/timeboard.py:Timeboard.__init__"]}
{"id": "C15", "title": "Ambiguous amendments are refused, independently of order", "statement": "Construction raises KeyError if and only if two amendment keys fall within the same workshift; the result (labels or error) does not depend on the iteration order of the mapping; a failing amendment changes no label.", "quantifier": "for every mapping and every permutation of its items", "why_tests_cant": "All permutations and collisions.", "anchors": ["timeboard/core.py:_Timeline.amend"]}
{"id": "C16", "title": "Every schedule splits the workshifts into on duty and off duty", "statement": "For each schedule, every workshift position is listed in exactly one of the on-duty and off-duty indexes, in ascending order, on duty exactly when the selector accepts its label, in agreement with is_on_duty/is_off_duty of the workshift.", "quantifier": "for every timeboard and selector function", "why_tests_cant": "All labels and selectors.", "anchors": ["timeboard/core.py:_Schedule", "timeboard/workshift.py:Workshift.is_on_duty", "timeboard/workshift.py:Workshift.is_off_duty"]}
{"id": "C17", "title": "rollforward lands where counting says", "statement": "ws.rollforward(n, duty) with n>=0 returns the workshift w at or after ws having the duty, such that exactly n workshifts with this duty lie in [ws, w); with n<0 it returns the workshift w with the duty such that exactly -n workshifts with this duty lie in [w, z) where z is the first workshift with the duty at or after ws. OutOfBoundsError is raised exactly if there is no such workshift. A duty that is not one of 'on', 'off', 'same', 'alt', 'any' raises ValueError (also in rollback).", "quantifier": "for every timeboard, schedule, workshift, number of steps and duty in {on, off, any, same, alt}", "why_tests_cant": "All step counts, at both ends of the timeline.", "anchors": ["timeboard/workshift.py:Workshift.rollforward", "timeboard/workshift.py:Workshift._get_duty_index"]}
{"id": "C18", "title": "rollback is the mirror image of rollforward", "statement": "ws.rollback(n, duty) with n>=0 returns the workshift w at or before ws having the duty such that exactly n workshifts with this duty lie in (w, ws]; with n<0 steps go to the future from the zero step workshift; OutOfBoundsError exactly if there is no such workshift.", "quantifier": "for every timeboard, schedule, workshift, steps, duty", "why_tests_cant": "All step counts, at both ends of the timeline.", "anchors": ["timeboard/workshift.py:Workshift.rollback"]}
{"id": "C19", "title": "Workshift arithmetic", "statement": "For a workshift ws with duty d: rolling forward n and back n returns ws whenever the first roll succeeds; rolling forward a then b (a,b>=0) equals rolling forward a+b, including failures; ws + n is rollforward(n) on duty, ws - n is rollback(n).", "quantifier": "for every timeboard, workshift, and all step counts", "why_tests_cant": "Algebraic laws over unbounded integers.", "anchors": ["timeboard/workshift.py:Workshift.__add__", "timeboard/workshift.py:Workshift.__sub__", "timeboard/workshift.py:Workshift.rollforward", "timeboard/workshift.py:Workshift.rollback"]}
{"id": "C20", "title": "Interval between two points", "statement": "get_interval((t1, t2)) contains exactly the workshifts from the one holding t1 to the one holding t2 (null means the corresponding end of the timeboard). It raises VoidIntervalError if the workshift of t2 precedes that of t1 and an out-of-bounds error (OutOfBoundsError or PartialOutOfBoundsError) if a point is outside; it never returns an interval extending beyond the points' workshifts.", "quantifier": "for every timeboard and all pairs of instants or nulls", "why_tests_cant": "All relative placements incl. out of bounds on either side.", "anchors": ["timeboard/timeboard.py:Timeboard.get_interval", "timeboard/timeboard.py:Timeboard._get_interval_locs_from_reference", "timeboard/timeboard.py:Timeboard._locations_in_order"]}
{"id": "C21", "title": "Interval of a given length", "statement": "get_interval(t, length=n) for n>0 is the n workshifts starting with the workshift of t, for n<0 the -n workshifts ending with it; n=0 raises VoidIntervalError; it fails with an out-of-bounds error exactly if the timeboard does not have that many workshifts there.", "quantifier": "for every timeboard, instant and integer length", "why_tests_cant": "All lengths, both directions, both ends.", "anchors": ["timeboard/timeboard.py:Timeboard._get_interval_locs_by_length"]}
{"id": "C22", "title": "Interval from a calendar period holds exactly the workshifts whose reference time is in the period", "statement": "get_interval(t, period=f) (clipping allowed, the default) returns the interval of exactly those workshifts whose reference time (start or end, per workshift_ref) lies within the calendar period, whenever there are any; if there is none it raises VoidIntervalError or OutOfBoundsError.", "quantifier": "for every timeboard, workshift_ref setting, and calendar period", "why_tests_cant": "Workshift vs period alignment varies without bound, esp. compound workshifts and clipped periods.", "anchors": ["timeboard/timeboard.py:Timeboard._get_interval_locs_by_period", "timeboard/core.py:_Timeline.get_ws_pos_by_ref_after", "timeboard/core.py:_Timeline.get_ws_pos_by_ref_before"]}
{"id": "C23", "title": "clip_period=False never truncates", "statement": "With clip_period=False get_interval from a period either returns the same interval as with clipping, the period lying entirely inside the timeboard, or raises; whenever the period extends beyond the timeboard it raises.", "quantifier": "for every timeboard and calendar period", "why_tests_cant": "All alignments.", "anchors": ["timeboard/timeboard.py:Timeboard._get_interval_locs_by_period", "timeboard/timeboard.py:Timeboard.get_interval"]}
{"id": "C24", "title": "`closed` strips exactly the requested ends", "statement": "With closed='01', '10', '00' get_interval returns the interval of closed='11' without its first, last, or both workshifts - except that a clipped end of a calendar period is never stripped - and raises VoidIntervalError if nothing is left.", "quantifier": "for every way of defining an interval and every value of closed", "why_tests_cant": "Interaction of clipping, stripping and one-workshift intervals at the edges of the timeboard.", "anchors": ["timeboard/timeboard.py:Timeboard._strip_interval_locs", "timeboard/timeboard.py:Timeboard.get_interval"]}
{"id": "C25", "title": "Interval queries agree with its list of workshifts", "statement": "For every interval, duty and schedule, with W the list of positions from first to last having the duty: workshifts() yields W in order, count() = len(W), nth(n) = W[n] with Python's negative indexing and OutOfBoundsError outside, first() = W[0], last() = W[-1].", "quantifier": "for every timeboard, interval, duty, schedule, n", "why_tests_cant": "All n and intervals.", "anchors": ["timeboard/interval.py:Interval.workshifts", "timeboard/interval.py:Interval.nth", "timeboard/interval.py:Interval.count", "timeboard/interval.py:Interval.first", "timeboard/interval.py:Interval.last", "timeboard/interval.py:Interval._find_my_bounds_in_idx"]}
{"id": "C26", "title": "Counts are additive", "statement": "count('on') + count('off') = count('any') = len(interval); and for an interval split in two adjacent ones counts of each duty add up; likewise total_duration.", "quantifier": "for every timeboard, schedule, interval and split position", "why_tests_cant": "Additivity over all splits.", "anchors": ["timeboard/interval.py:Interval.count", "timeboard/interval.py:Interval.total_duration", "timeboard/interval.py:Interval.__len__"]}
{"id": "C27", "title": "Overlap is set intersection", "statement": "a.overlap(b) contains a workshift iff both a and b contain it; it is a void interval (count 0, length 0, no workshifts) iff they have none in common; it is commutative, associative and idempotent as regards its workshifts, also when void intervals take part; the result carries the schedule asked for.", "quantifier": "for all intervals, including void ones, of a timeboard", "why_tests_cant": "Algebraic laws over all pairs/triples.", "anchors": ["timeboard/interval.py:Interval.overlap", "timeboard/interval.py:_VoidInterval"]}
{"id": "C28", "title": "what_portion_of is a proper ratio", "statement": "a.what_portion_of(b) = count(a overlap b) / count(b) for the duty and schedule, lies in [0,1], is 0 iff the overlap has no such workshifts (never a division by zero), is 1 if a contains b and b has such workshifts; portions of adjacent pieces add up.", "quantifier": "for all intervals, duties, schedules", "why_tests_cant": "Division by zero and range for all inputs.", "anchors": ["timeboard/interval.py:Interval.what_portion_of"]}
{"id": "C29", "title": "count_periods is the sum of per-period quotients", "statement": "Whenever count_periods(f, duty) returns, the value equals the sum over the calendar periods of f that the interval touches of count(interval within period)/count(period), membership of a workshift in a period being decided by its reference time and 0/0 counting as 0; additionally it returns 0 when the interval has no workshift of the duty.", "quantifier": "for every timeboard, interval, frequency, duty, schedule, workshift_ref", "why_tests_cant": "First/last/intermediate period logic on arbitrary alignments.", "anchors": ["timeboard/interval.py:Interval.count_periods"]}
{"id": "C30", "title": "count_periods fails only if a period holding the first or last counted workshift leaves the timeboard", "statement": "As documented, an out-of-bounds error is raised only if the calendar period containing the first or the last workshift of the interval with the given duty extends outside the timeboard.", "quantifier": "for every timeboard, interval, frequency, duty", "why_tests_cant": "Which period triggers the failure depends on the duty of workshifts near the ends.", "anchors": ["timeboard/interval.py:Interval.count_periods"]}
{"id": "C31", "title": "Durations and worktime add up", "statement": "interval.total_duration(duty) is the sum of duration over workshifts(duty); interval.worktime(duty) is the sum of Workshift.worktime(duty) over all workshifts of the interval, for both worktime sources. With worktime_source='labels' the worktime of a workshift having the duty is its label (else 0) and that of an interval is the sum of the labels of workshifts(duty); a label among them that is not a number makes it a TypeError. With 'duration' it is the duration.", "quantifier": "for every timeboard with numeric labels, interval, duty, schedule", "why_tests_cant": "Vectorised computation (searchsorted) vs per-workshift formula on every layout.", "anchors": ["timeboard/interval.py:Interval.total_duration", "timeboard/interval.py:Interval.worktime", "timeboard/workshift.py:Workshift.worktime", "timeboard/core.py:_Timeline.get_durations_for_ws_array"]}
{"id": "C32", "title": "The dataframe view agrees with the accessors", "statement": "to_dataframe(a, b) has one row per workshift a..b with start, end, duration, ws_ref, label and each schedule's status equal to what the Workshift accessors report; with a>b it is empty; to_dataframe of an interval has the rows of its workshifts, none if it is void.", "quantifier": "for every timeboard and valid positions a, b", "why_tests_cant": "Independent computation of bounds; all slices, incl. the last workshift.", "anchors": ["timeboard/core.py:_Timeline.to_dataframe", "timeboard/timeboard.py:Timeboard.to_dataframe"]}
{"id": "C33", "title": "Schedules behave as a map by name", "statement": "After any sequence of add_schedule / drop_schedule calls: schedules[name] is the schedule most recently added and not dropped; adding a taken name raises KeyError and changes nothing; dropping removes exactly that name; no operation changes any other schedule, the labels, or default_schedule.", "quantifier": "for every sequence of operations", "why_tests_cant": "Histories.", "anchors": ["timeboard/timeboard.py:Timeboard.add_schedule", "timeboard/timeboard.py:Timeboard.drop_schedule", "timeboard/timeboard.py:Timeboard.default_schedule"]}
{"id": "C34", "title": "Iterating over an interval yields each workshift once", "statement": "A for-loop over an interval visits exactly its workshifts, in order, once, regardless of other iterations over the same interval object going on at the same time.", "quantifier": "for every interval and every interleaving of iterations", "why_tests_cant": "Interleavings of iterators sharing state.", "anchors": ["timeboard/interval.py:Interval.__iter__", "timeboard/interval.py:Interval.__next__"]}
{"id": "C35", "title": "Workshift constructor guards its location", "statement": "Workshift(tb, location) raises OutOfBoundsError if location is outside the timeboard or negative (as documented); otherwise the workshift has duration >= 1 and start_time <= end_time.", "quantifier": "for every timeboard and integer location", "why_tests_cant": "All integers.", "anchors": ["timeboard/workshift.py:Workshift.__init__", "timeboard/core.py:_Timeline._get_ws_last_baseunit"]}
{"id": "C36", "title": "Search by reference time", "statement": "The search for a workshift 'after' (resp. 'before') an instant returns the earliest workshift whose reference time is on or after it (latest on or before it), and reports out of bounds exactly if there is none or the instant is outside the timeboard.", "quantifier": "for every timeboard, workshift_ref and instant", "why_tests_cant": "All instants, edges.", "anchors": ["timeboard/core.py:_Timeline.get_ws_pos_by_ref_after", "timeboard/core.py:_Timeline.get_ws_pos_by_ref_before"]}
{"id": "C37", "title": "Marks at an offset from the start of each period", "statement": "Marker(each=p, at=[offset...]) places exactly one mark per offset and calendar period, at period start + offset snapped to the start of its base unit, and none if that falls outside the period; negative offsets yield none.", "quantifier": "for every frequency, offset and range", "why_tests_cant": "Calendar arithmetic with months of different lengths.", "anchors": ["timeboard/when.py:from_start_of_each", "timeboard/core.py:_Frame.partition_with_marker"]}
{"id": "C38", "title": "n-th weekday of a month", "statement": "The mark computed by nth_weekday_of_month for a period is the n-th (from the start or, if negative, from the end) given weekday of the designated month, and is omitted exactly if the month has no such day or lies outside the period. A month, weekday or number outside its range is refused with AssertionError.", "quantifier": "for every year, month, weekday, n", "why_tests_cant": "All months of an infinite calendar.", "anchors": ["timeboard/when.py:nth_weekday_of_month", "timeboard/calendars/calendarbase.py:nth_weekday_of_month"]}
{"id": "C39", "title": "Preconfigured calendars always build and respect their bounds", "statement": "For every custom_start/custom_end inside the supported range and every combination of options, the US, UK and RU calendars build without duplicate-amendment errors; outside the supported range they raise OutOfBoundsError.", "quantifier": "for every pair of dates and all options", "why_tests_cant": "Thousands of date pairs and option combinations.", "anchors": ["timeboard/calendars/calendarbase.py:CalendarBase.__new__", "timeboard/calendars/US.py:Weekly8x5", "timeboard/calendars/UK.py:Weekly8x5", "timeboard/calendars/RU.py:Weekly8x5"]}
{"id": "C40", "title": "A calendar built for a shorter range agrees with the full one", "statement": "For every custom range, each day of the restricted US/UK/RU calendar has the same duty as in the full calendar.", "quantifier": "for every custom range and option combination", "why_tests_cant": "All sub-ranges.", "anchors": ["timeboard/calendars/US.py:Weekly8x5.amendments", "timeboard/calendars/UK.py:Weekly8x5.amendments", "timeboard/calendars/calendarbase.py:extend_weekends"]}
{"id": "C41", "title": "Distance to the neighbouring marks", "statement": "The first span that Marker(each, at) produces records the number of base units from the last mark at or before the start of the partitioned span to that start, or -1 if the calendar periods reaching back one period length contain no such mark; the last span likewise records the distance to the first mark after the end.", "quantifier": "for every frame with an unmultiplied base unit frequency, span, marker frequency and list of offsets that do not mix signs", "why_tests_cant": "All positions of a span relative to the calendar and the marks.", "anchors": ["timeboard/core.py:_Frame.partition_with_marker", "timeboard/core.py:get_freq_delta"]}
{"id": "C42", "title": "Marks relative to Easter", "statement": "For yearly periods from_easter places exactly one mark per year, at Easter Sunday (western or orthodox) of that year plus the offset, snapped to the start of its base unit, and none if that leaves the year.", "quantifier": "for every year 1583..4099 and every offset that does not mix signs", "why_tests_cant": "Thousands of years, two rites, all offsets.", "anchors": ["timeboard/when.py:from_easter"]}
{"id": "C43", "title": "extend_weekends adds the right days off", "statement": "extend_weekends keeps every amendment given to it and, taking the amended weekend days in chronological order, adds for each exactly the first not yet amended day before or after the weekend (as asked by `how`, 'nearest' going back only from the first half of the weekend), with the given label or else the label of the holiday; it never fails.", "quantifier": "for every amendments dictionary, `how`, label and list of weekend days", "why_tests_cant": "Unboundedly many dictionaries; chains of adjacent holidays.", "anchors": ["timeboard/calendars/calendarbase.py:extend_weekends"]}
{"id": "C44", "title": "extend_weekends adds weekdays only", "statement": "A day added by extend_weekends for the Saturday-Sunday weekend is never itself a Saturday or Sunday.", "quantifier": "for every amendments dictionary, `how` and label", "why_tests_cant": "Unboundedly many dictionaries.", "anchors": ["timeboard/calendars/calendarbase.py:extend_weekends"]}
{"id": "C45", "title": "Base unit frequencies are calendar periods", "statement": "The units of the frequencies N, U, L, S, T, H, D, W-day, M, Q-month and A-month are the Gregorian calendar periods of those names: every instant lies in exactly one unit, weeks end on the given weekday, quarters and years end with the given month, and dates follow each other by the Gregorian rules; frequency strings with a number and with default anchors (W is W-SUN, Q is Q-DEC, A and Y are A-DEC) name the corresponding runs of units, and strings of several fixed parts such as 1H30T name runs of as many of the largest units that measure their sum.", "quantifier": "for every instant, frequency string (of one or several parts) and unit, without bounds in time", "why_tests_cant": "An infinite calendar.", "anchors": ["timeboard/core.py:_Frame.__init__", "timeboard/core.py:get_period"]}
{"id": "C46", "title": "Offsets shift a time by calendar units", "statement": "Adding an offset of years, months, weeks, days, hours, minutes and seconds to a time first moves it by the years and months, keeping the day of the month or taking the last day if the month is shorter, and the time of day, and then adds the rest as a fixed duration; an offset without keywords is one day.", "quantifier": "for every offset and every time, without bounds", "why_tests_cant": "An infinite calendar and unboundedly many offsets.", "anchors": ["timeboard/when.py:from_start_of_each", "timeboard/when.py:from_easter"]}
{"id": "C47", "title": "Calling a timeboard finds a workshift or an interval", "statement": "Calling a timeboard with one argument that names a point in time (timestamp, int, Period, Workshift) returns the workshift containing it or raises OutOfBoundsError; with a tuple of two bounds it returns the interval between the workshifts they name; without arguments, with length or with period it returns the interval of get_interval; anything else as a single argument raises TypeError. get_workshift with a schedule attaches it to the workshift, and raises TypeError if it is no schedule.", "quantifier": "for every timeboard and every argument object, whatever pandas does with NaT", "why_tests_cant": "Combinations of argument types are many and the timeboards unbounded.", "anchors": ["timeboard/timeboard.py:Timeboard.__call__", "timeboard/timeboard.py:Timeboard.get_workshift", "timeboard/timeboard.py:Timeboard.get_interval"]}
{"id": "C48", "title": "get_interval refuses arguments that fit no technique", "statement": "A combination of arguments that fits none of the documented techniques raises TypeError or ValueError, no argument is silently ignored, and apart from those refusals get_interval raises only OutOfBoundsError, PartialOutOfBoundsError or VoidIntervalError.", "quantifier": "for every timeboard and every combination of argument types", "why_tests_cant": "The product of argument types, values and timeboards.", "anchors": ["timeboard/timeboard.py:Timeboard.get_interval", "timeboard/core.py:get_timestamp", "timeboard/core.py:get_period"]}
{"id": "C49", "title": "Constructors of intervals and workshifts check their arguments", "statement": "Interval accepts exactly two bounds that are locations or workshifts inside the timeboard and in order, _VoidInterval exactly those in reverse order; Workshift accepts integer locations; other arguments raise TypeError, IndexError, OutOfBoundsError or VoidIntervalError as documented.", "quantifier": "for every timeboard, bounds and schedule argument", "why_tests_cant": "Unboundedly many bounds and timeboards.", "anchors": ["timeboard/interval.py:_BaseInterval.__init__", "timeboard/workshift.py:Workshift.__init__"]}
{"id": "C50", "title": "The constructor's settings govern the workshifts", "statement": "In a timeboard, whatever schedules were added or dropped since its construction, the reference time of each workshift is its start or end time as asked by workshift_ref; the default schedule has the given name and its duty is default_selector of the label; Workshift.worktime(duty) is 0 if the workshift does not have the duty and otherwise its numeric label or the number of its base units, as asked by worktime_source; a label that is not a number raises TypeError, a duty other than 'on', 'off' and 'any' raises ValueError.", "quantifier": "for every timeboard, workshift, duty and schedule", "why_tests_cant": "Settings combine with every layout and every workshift.", "anchors": ["timeboard/timeboard.py:Timeboard.__init__", "timeboard/core.py:_Timeline.get_ws_ref_time", "timeboard/workshift.py:Workshift.worktime"]}
{"id": "C51", "title": "A marker begins its spans where its `how` function puts the marks", "statement": "A Marker accepts the four documented names of `how` or a function, and raises KeyError for another name. Whatever the function and the elements of `at`, the spans follow each other without gaps, and inside the divided span a new one begins exactly with those base units that contain a point returned for some element of `at` for the calendar periods around the span (for the very last base unit of the timeboard the points of the second from its start on count); what the outermost spans skip is the distance to the nearest such points outside; an exception of the function is passed on; an element of `at` with keywords that the named function does not take raises TypeError. For the four names the points are those of C37 (offsets of one sign), C38 and C42.", "quantifier": "for every frame, span, frequency, list of `at` and function", "why_tests_cant": "User functions are unbounded; tests know a few markers.", "anchors": ["timeboard/core.py:Marker.__init__", "timeboard/core.py:_Frame._partition_with_marker"]}
{"id": "C52", "title": "Constructors of Organizer and Timeboard check and read their arguments", "statement": "Organizer demands exactly one of marker and marks (else ValueError) and an iterable structure (else TypeError), reads a frequency as a marker and a single mark as a list of one. Timeboard raises TypeError for a layout that is neither an Organizer nor an iterable, TypeError for amendments that are not dictionary-like, ValueError for an unknown worktime source, an unreadable frequency or unreadable bounds, and the first of these prevails; a key of amendments that is no point in time is refused. With other arguments it builds the timeboard that the arguments stand for; a list or tuple gives its elements, whatever they are, to the base units in turn.", "quantifier": "for every combination of arguments of any type", "why_tests_cant": "The product of argument types and values.", "anchors": ["timeboard/core.py:Organizer.__init__", "timeboard/timeboard.py:Timeboard.__init__", "timeboard/core.py:_Timeline.amend"]}
{"id": "C53", "title": "Construction fails only for a reason", "statement": "With a layout and a worktime source of the right types, Timeboard() fails exactly in these cases: start is in a later base unit than end (VoidIntervalError); some organizer that comes to be used cannot divide its span, because the periods of its marker do not group the base units (UnacceptablePeriodError) or its `how` function raises an error (that error); some pattern comes to be used on a span whose distance to the preceding mark is unknown (OutOfBoundsError); two amendments fall in one workshift (KeyError). Parts of the layout that are never reached do no harm. In particular a layout of explicit marks and calendar periods that group the base units builds over every range.", "quantifier": "for every layout of any depth, range, amendments and function", "why_tests_cant": "Layouts are unbounded trees and reachability of their parts depends on the calendar.", "anchors": ["timeboard/timeboard.py:Timeboard.__init__", "timeboard/core.py:_Timeline.__organize", "timeboard/core.py:_Timeline.__apply_pattern"]}
{"id": "C54", "title": "The times of an interval are those of its workshifts", "statement": "start_time and end_time of an interval bound exactly the instants of its workshifts (NaT for a void interval); get_interval((ivl.start_time, ivl.end_time)) is the same interval; of two intervals of a timeboard one includes the other, precedes it or adjoins it exactly if their times say so.", "quantifier": "for every timeboard and interval", "why_tests_cant": "Compound workshifts make intervals of any length.", "anchors": ["timeboard/interval.py:Interval.start_time", "timeboard/interval.py:Interval.end_time"]}
{"id": "C55", "title": "Objects of another timeboard stand for their time", "statement": "A workshift or an interval of another timeboard given to a timeboard or to an interval stands for its time: lookup finds the workshift of its reference time, overlap of two intervals holds the workshifts with common time, and an interval made of two workshifts covers their time.", "quantifier": "for every two timeboards and their workshifts and intervals", "why_tests_cant": "Tests use one timeboard at a time.", "anchors": ["timeboard/interval.py:Interval.overlap", "timeboard/interval.py:_BaseInterval.__init__", "timeboard/timeboard.py:Timeboard.get_workshift"]}
{"id": "C56", "title": "The printed form of a layout makes the layout again", "statement": "The lines shown by repr of a timeboard or an organizer, read in order, define each organizer, each marker with `at` and each remembering pattern of the layout exactly once, under distinct names, before it is used; the last of them is the layout itself. What is shown of a marker whose `how` is a name is a call that makes the same marker.", "quantifier": "for every layout of organizers, markers and patterns, however nested and shared", "why_tests_cant": "The project has no test of repr; sharing and nesting are unlimited.", "anchors": ["timeboard/core.py:Organizer._repr_builder", "timeboard/core.py:Organizer.__repr__", "timeboard/timeboard.py:Timeboard.__init__", "timeboard/core.py:Marker.__repr__"]}
{"id": "C57", "title": "A calendar class makes the timeboard of its parameters", "statement": "A class derived from CalendarBase, called with custom bounds within the bounds of its parameters, makes the timeboard of these parameters over the given period, with no amendments, with the user's amendments only, or with what its `amendments` method returns for the period, as the flags say; the workshifts are those of the unamended timeboard and amended workshifts have the given labels, two amendments of one workshift are refused, an exception of the method or of Timeboard passes on, and bounds outside are refused. CalendarBase itself makes days of label 1.", "quantifier": "for every class (parameters and amendments method), every combination of constructor arguments", "why_tests_cant": "Classes, layouts, bounds and amendments are unlimited; the tests derive two fixed classes.", "anchors": ["timeboard/calendars/calendarbase.py:CalendarBase.__new__", "timeboard/calendars/calendarbase.py:CalendarBase._get_bounds", "timeboard/calendars/calendarbase.py:CalendarBase.parameters", "timeboard/calendars/calendarbase.py:CalendarBase.amendments"]}
{"id": "C58", "title": "Printed workshifts, intervals and timeboards tell what they are", "statement": "repr and str of a workshift, an interval (also void) and a timeboard never fail. They show the position or positions, the schedule if its name is not that of the default schedule, the number of base units of a workshift unless it is one, the base unit frequency and the period at which the first and the last workshift start, the length, and in str the rows of the dataframe. Two workshifts or two intervals of a timeboard are shown the same exactly if they have the same positions and the same name of the schedule.", "quantifier": "for every timeboard and every workshift and interval of it", "why_tests_cant": "The project has no test of str or repr; timeboards are unlimited.", "anchors": ["timeboard/workshift.py:Workshift.__repr__", "timeboard/workshift.py:Workshift.compact_str", "timeboard/workshift.py:Workshift.__str__", "timeboard/interval.py:Interval.compact_str", "timeboard/interval.py:Interval.__str__", "timeboard/interval.py:_VoidInterval.compact_str", "timeboard/timeboard.py:Timeboard.compact_str"]}
{"id": "C59", "title": "Exceptions of selectors pass on and change nothing", "statement": "If a selector raises an exception for the label of some workshift, making a timeboard with it as the default selector, or adding a schedule with it, raises the exception of the first such workshift, and the timeboard keeps its schedules. Otherwise the result is the same as for a selector that never raises, and asking a workshift for its duty under that schedule never raises.", "quantifier": "for every selector, timeboard and arguments of its constructor", "why_tests_cant": "Selectors are arbitrary functions; the tests use selectors that never raise.", "anchors": ["timeboard/core.py:_Schedule.__init__", "timeboard/core.py:_Schedule.is_on_duty", "timeboard/timeboard.py:Timeboard.add_schedule", "timeboard/timeboard.py:Timeboard.__init__"]}
{"id": "C60", "title": "Labels after any sequence of amendments and resets", "statement": "After any sequence of calls of amend and reset on the timeline of a timeboard, the label of each workshift is the one told by the last call that reached it and did not raise; a call that raises changes nothing, and the workshifts keep their times. amend raises KeyError at the first key whose workshift was already referred to, and, if not_in_range is anything but 'ignore', OutOfBoundsError at the first key outside the timeline, whichever comes first. Schedules follow the labels.", "quantifier": "for every timeboard, every sequence of calls, every dictionary of amendments", "why_tests_cant": "Histories, timelines and dictionaries are unlimited.", "anchors": ["timeboard/core.py:_Timeline.amend", "timeboard/core.py:_Timeline.reset", "timeboard/core.py:_Schedule.__init__"]}
{"id": "C61", "title": "Iterators as patterns and structures", "statement": "A pattern or a structure may be an iterator of labels (generator, itertools.cycle, iter of a list). Each use takes as many elements as there are base units (with those of the calendar period before the span) or spans, going on where the use before ended; the labels of the workshifts are these elements in order, repeated in cycles when there are not enough of them, also for later uses. A RememberingPattern is one of these iterators. A timeboard made with iterators can also be made with lists.", "quantifier": "for every layout with any number of iterators, finite or endless, at any place, used any number of times; every frame", "why_tests_cant": "Layouts, frames and iterators are unlimited; an iterator shared between places of a layout depends on the order of all uses.", "anchors": ["timeboard/core.py:_skiperator", "timeboard/core.py:_Timeline.__apply_pattern", "timeboard/core.py:_Timeline.__organize", "timeboard/core.py:RememberingPattern", "timeboard/core.py:Organizer"]}
{"id": "C62", "title": "Work time from labels that are not all numbers", "statement": "With worktime_source='labels' the work time of a workshift is its label, and TypeError is raised if the label is not a number; the work time of an interval is the sum of the work time of its workshifts with the duty asked for, and TypeError is raised exactly if that of one of them raises it. Labels of workshifts without this duty do not matter.", "quantifier": "for every timeboard whose labels are ints, floats, strings, None, NaN and Periods in any mixture, every interval, duty and schedule", "why_tests_cant": "Mixtures of labels in an interval are unlimited; the tests have intervals with labels of one type only.", "anchors": ["timeboard/interval.py:Interval._sum_labels", "timeboard/interval.py:Interval.worktime", "timeboard/workshift.py:Workshift.worktime"]}
{"id": "C63", "title": "Marks with absolute keywords of DateOffset", "statement": "The elements of `at` are keyword arguments of pandas.DateOffset, so the singular keywords year, month, day, hour, minute and second set these parts of the start of the period (day 31 being the last day of a shorter month), the plural ones are added afterwards, and weekday then moves to that weekday; the result is a mark, snapped to the start of its base unit, and none if it falls outside the period. Values out of range raise ValueError, a weekday out of range IndexError.", "quantifier": "for every combination of the keywords with integer values, every frequency and range", "why_tests_cant": "No test uses an absolute keyword, and the combinations of keywords, months of different lengths and weekdays are unlimited.", "anchors": ["timeboard/when.py:from_start_of_each", "timeboard/when.py:from_easter"]}
{"id": "C64", "title": "Portions and counts of periods as floating-point numbers", "statement": "what_portion_of returns the floating-point number nearest to the exact quotient of the two counts; it is between 0 and 1, 0 or 1 only if the quotient is, and the portions of two pieces that make up the whole interval add up to 1.0. count_periods fails exactly when the exact count does; otherwise its result differs from the exact number by at most 1 part in 2**51, is 0.0 only if that number is 0, is exact if the interval consists of whole periods, and is the nearest floating-point number if only one period is involved.", "quantifier": "for every timeboard of fewer than 2**53 workshifts, every interval, duty, schedule and period", "why_tests_cant": "Tests compare a few results with approximate equality; the errors depend on every pair of counts.", "anchors": ["timeboard/interval.py:Interval.what_portion_of", "timeboard/interval.py:Interval.count_periods"]}
{"id": "C65", "title": "Work time from labels that are floating-point numbers", "statement": "With worktime_source='labels' the work time of an interval is what adding the labels of the workshifts with the duty in chronological order gives in floating-point arithmetic (ints exactly as long as only ints are added). It is exact if all labels are multiples of 1/2**k, such as whole, half or quarter hours; otherwise, for n workshifts, it differs from the exact sum by at most n/2**52 of the sum of the absolute values of the labels.", "quantifier": "for every timeboard, interval, duty and schedule; labels that are ints, floats or missing, together smaller than 2**53 (less than 2**(53-k) for the exactness)", "why_tests_cant": "Tests use a few integer labels; rounding errors depend on every label and on the order.", "anchors": ["timeboard/interval.py:Interval._sum_labels", "timeboard/interval.py:Interval.worktime"]}
{"id": "C66", "title": "Iterators of organizers and patterns", "statement": "The structure of an organizer may be an iterator (a generator, iter(list), itertools.cycle(...)) whose elements are organizers, patterns and labels, which may use iterators themselves, also the same one. An element is taken for each span just before the span is organized; when the iterator ends, the organizer repeats the elements it has taken, and if there are none its base units stay workshifts with the default label. The timeboard is the one made from the layout with lists in the place of the iterators that results, this layout is unique, and the iterators continue behind what was taken.", "quantifier": "for all layouts, iterators, frequencies, bounds and amendments, as long as Python's limit of nested calls is not exceeded", "why_tests_cant": "Tests use one or two iterators of labels; what later spans get depends on everything taken before.", "anchors": ["timeboard/core.py:_Timeline.__organize", "timeboard/core.py:_Timeline.__apply_pattern", "timeboard/core.py:_skiperator"]}
{"id": "C67", "title": "Iterators as marks are read once", "statement": "An iterator (e.g. a generator) given as `marks` of an Organizer is read to its end by the first use, which divides its span as a list of the same points in time would. Every later use of the iterator - for another span, by another organizer, by another timeboard, or after an attempt that raised an exception - finds no marks and does not divide its span. Organizers without iterators are not affected.", "quantifier": "for every layout with any number of organizers that share iterators in any way, every range, base unit, amendments, and state of the iterators before", "why_tests_cant": "The order in which organizers of a nested layout are used depends on the spans; tests only use lists.", "anchors": ["timeboard/core.py:_Frame.partition_at_marks", "timeboard/core.py:_Timeline.__organize", "timeboard/core.py:Organizer.__init__"]}
{"id": "C68", "title": "Timeboards of the same layout agree where they overlap", "statement": "Two timeboards with the same base unit, layout and amendments give the same label to every base unit that both contain, whatever their first and last base units, if every structure in the layout has a single element and the innermost organizer divides by unmultiplied calendar periods, by offsets from the start of each period, by n-th weekdays of months, or (in calendar years) by days counted from Easter, its structure being a pattern: the label is pattern[k mod len] with k the number of base units from the last mark of the calendar up to the base unit. If every period has a mark, the marker always looks back far enough to find it.", "quantifier": "for every pair of successfully constructed timeboards, depth of layout, marker frequency, list of offsets that do not lead before the period, list of weekdays or of offsets from Easter, pattern, list of amendments and common base unit", "why_tests_cant": "All pairs of start dates relative to all marks; the tests fix the start.", "anchors": ["timeboard/core.py:_Frame.partition_with_marker", "timeboard/core.py:get_freq_delta", "timeboard/core.py:_Timeline.__apply_pattern", "timeboard/core.py:_Timeline.__organize"]}
{"id": "C69", "title": "Timeboards that have workshifts in common agree about them", "statement": "If the workshifts a to b of one timeboard have the same times and labels as the workshifts a+c to b+c of another, then everything asked of these workshifts has the same answer in both, the positions being c further: the workshift at a time, the interval of a pair of times or of a calendar period that lies in their time, count, list, n-th, total duration, worktime and portion of an interval among them under schedules with the same selector, the number of calendar periods if the periods touched lie in their time, and steps that stay among them; and the errors are the same. Two timeboards with the same base unit, amendments, workshift reference and layout of single calendar periods have all their common base units as such workshifts.", "quantifier": "for every pair of reachable timeboards, range of common workshifts, interval, workshift, period, duty, number of steps and pair of schedules with the same selector", "why_tests_cant": "Relates the answers of two arbitrary timeboards; the tests look at one at a time.", "anchors": ["timeboard/timeboard.py:Timeboard.get_workshift", "timeboard/timeboard.py:Timeboard.get_interval", "timeboard/interval.py:Interval.count_periods", "timeboard/interval.py:Interval.worktime", "timeboard/workshift.py:Workshift.rollforward", "timeboard/workshift.py:Workshift.rollback"]}
{"id": "C70", "title": "Labels matter only through selectors and worktime", "statement": "Replace every label x of the layout, the RememberingPatterns, the amendments and the default label by f x, and use selectors and worktimes of labels that have the same values on f x as before on x. Then the construction fails with the same error or gives a timeboard with the same workshifts, schedules and times, whose labels are the images under f; and every lookup, count, list, duration, worktime, number of periods, portion, overlap, step, dataframe, addition and removal of a schedule has the same result (with f applied to the labels in it) or the same error. No label is looked at in any other way.", "quantifier": "for every function from labels to labels (injective or not), all arguments of the constructor, and all arguments of the methods", "why_tests_cant": "The tests use a few labels; code that treats an empty, zero or null label specially would pass them.", "anchors": ["timeboard/core.py:_Timeline.__organize", "timeboard/core.py:_Timeline.__apply_pattern", "timeboard/core.py:_Timeline.amend", "timeboard/core.py:_Schedule", "timeboard/timeboard.py:Timeboard.__init__", "timeboard/interval.py:Interval", "timeboard/workshift.py:Workshift"]}
{"id": "C71", "title": "Numbers of periods and worktime of parts add up", "statement": "Where count_periods returns a number for an interval, it returns one for every part of it, not greater; for two adjacent intervals that make it up the numbers add up to it. If it returns numbers for two adjacent intervals, and both have workshifts of the duty, it returns their sum for the two together. The number is never negative nor greater than the number of touched periods, is 0 only if the interval has no workshift of the duty, and is exactly 1 for the interval of a calendar period of the frequency that has any. The worktime of two adjacent intervals is that of both together; it is an error exactly if it is one for either.", "quantifier": "for every timeboard, intervals, frequency, duty, schedule, workshift_ref and worktime source", "why_tests_cant": "Relations between results for arbitrary splits and alignments; the tests look at single values.", "anchors": ["timeboard/interval.py:Interval.count_periods", "timeboard/interval.py:Interval.worktime", "timeboard/interval.py:Interval._sum_labels"]}
{"id": "C72", "title": "Workshifts that span calendar periods do not depend on the base unit", "statement": "Two timeboards over the same time, with the same layout, amendments and workshift_ref but different base units, have the same number of workshifts, with the same start, end and reference times and labels, position by position, if the layout is made of organizers by calendar periods and by marks at which base units of both begin, down to labels. Where base units have a fixed length, the durations of a workshift in the two units are in the ratio of the lengths. A mark inside a base unit may make them differ.", "quantifier": "for every pair of frequencies, time span, layout of any depth, labels and amendments", "why_tests_cant": "Relates constructions at different granularity for arbitrary layouts and bounds; tests fix one base unit each.", "anchors": ["timeboard/core.py:_Frame.partition_with_marker", "timeboard/core.py:_Frame.partition_at_marks", "timeboard/core.py:_Timeline.__organize", "timeboard/timeboard.py:Timeboard.__init__"]}
{"id": "C73", "title": "Steps from a workshift agree with the workshifts of an interval", "statement": "For n >= 0, ivl.nth(n) is the first workshift of the interval rolled forward by n, and ivl.nth(-n-1) the last one rolled back by n, with the duty and schedule, OutOfBoundsError being raised if the roll raises it or leaves the interval. If rolling ws forward (or back) by n >= 0 gives w, the interval from the one to the other has n+1 workshifts with the duty; and conversely, if there are k of them and the far end has the duty, rolling by k-1 steps gets there.", "quantifier": "for every timeboard, interval, workshift, number of steps, duty and schedule", "why_tests_cant": "Relates two independently coded searches (index of the schedule from a position, and filtering of an interval) over all positions, duties and schedules.", "anchors": ["timeboard/interval.py:Interval.nth", "timeboard/interval.py:Interval.count", "timeboard/workshift.py:Workshift.rollforward", "timeboard/workshift.py:Workshift.rollback"]}
{"id": "C74", "title": "A timeboard moved in time answers the same, so much later", "statement": "If the start, the end, the marks and the times of amendments are all moved by T, and the calendar periods used as base units and by markers come again after T, the construction fails with the same error or gives a timeboard whose workshifts, times, schedules, intervals, counts, worktime and dataframe are the same, T later; remembering patterns are left as they were left. Periods of fixed length come again exactly after multiples of their length, months, quarters and years exactly after multiples of 400 years; points given by from_start_of_each and nth_weekday_of_month come again with them, those of from_easter (western) after 5 700 000 years.", "quantifier": "for every time shift, layout of any depth, labels, amendments and query", "why_tests_cant": "Relates constructions at all pairs of times; tests use fixed dates.", "anchors": ["timeboard/core.py:_Frame.partition_with_marker", "timeboard/core.py:_Frame.partition_at_marks", "timeboard/core.py:_Timeline.amend", "timeboard/timeboard.py:Timeboard.__init__", "timeboard/when.py:from_start_of_each", "timeboard/when.py:nth_weekday_of_month", "timeboard/when.py:from_easter"]}
{"id": "C75", "title": "Frames are constructed only over the supported range of timestamps", "statement": "If the start and end of a frame are timestamps, the constructor raises (RuntimeError, or OutOfBoundsDatetime with a pandas that checks) unless all its base units begin within the 64-bit range; then points in time are found in the frame as with unbounded time, provided the last base unit also ends within the range.", "quantifier": "for every frequency, start, end and point in time, with a pandas that checks the range and with one that wraps around", "why_tests_cant": "The only test of the range uses days from one date; the wrapped comparison depends on the frequency and on both bounds.", "anchors": ["timeboard/core.py:_Frame.__new__", "timeboard/core.py:_Frame.get_loc"]}
{"id": "C76", "title": "Layouts written differently give the same timeboard", "statement": "The order and repetition of marks, the order and repetition of the elements of a marker's `at`, a structure or a pattern written out several times over, and an organizer without marks around another organizer, a label, or (under marks) a pattern make no difference: the timeboards are identical, RememberingPatterns are left in the same state, and the same errors are raised.", "quantifier": "for every layout, however deep, changed in any number of places, and all other arguments of Timeboard", "why_tests_cant": "The tests compare single layouts with expected results; equivalence of all layouts that differ in such ways, at every depth, cannot be enumerated.", "anchors": ["timeboard/core.py:_Timeline.__organize", "timeboard/core.py:_Frame.partition_with_marker", "timeboard/core.py:_Frame.partition_at_marks", "timeboard/core.py:_Timeline.__apply_pattern"]}
{"id": "C77", "title": "Schedules compared by the duty they give", "statement": "If one schedule is on duty exactly where another is off duty, then every method called with the other schedule and with 'on' and 'off' exchanged ('same', 'alt' and 'any' as they are) gives the same workshifts (apart from the schedule they carry), counts, durations, worktimes, portions and numbers of periods, or the same error. If all workshifts with duty d (on, off or any) under schedule s have duty d' under s', then an interval has at least as many workshifts (among them all the former), and at least the same total duration, under the latter; and a roll of a non-negative number of steps that succeeds under the former succeeds under the latter and ends no farther.", "quantifier": "for every timeboard, pair of schedules, workshift, interval, number of steps, duty and frequency of periods", "why_tests_cant": "Tests compare single results with constants for a few selectors; the relations hold between pairs of schedules with arbitrary selectors.", "anchors": ["timeboard/core.py:_Schedule.__init__", "timeboard/workshift.py:Workshift._get_duty_index", "timeboard/workshift.py:Workshift.rollforward", "timeboard/workshift.py:Workshift.rollback", "timeboard/interval.py:Interval._get_duty_idx", "timeboard/interval.py:Interval.count_periods", "timeboard/interval.py:Interval.what_portion_of"]}
{"id": "C78", "title": "Intervals are found again from their bounds, and intervals side by side share out the workshifts", "statement": "get_interval with the start and end of an interval, with its start and length, or with its end and minus the length gives the interval itself. Between the workshifts of two bounds `closed` leaves out the ends it says, and VoidIntervalError is raised if nothing is left. For points t0 <= t1 <= t2 each workshift from t0 to t2 is in exactly one of the intervals (t0, t1) and (t1, t2) closed on the same side. Each workshift is in the interval of exactly one period of a calendar frequency (of k successive periods if each is k units long).", "quantifier": "for every timeboard, interval, points in time within the timeboard, value of `closed`, schedule and frequency", "why_tests_cant": "The tests construct single intervals; that neighbouring ones neither overlap nor leave a gap concerns all pairs of points and all periods.", "anchors": ["timeboard/timeboard.py:Timeboard.get_interval", "timeboard/timeboard.py:Timeboard._get_interval_locs_from_reference", "timeboard/timeboard.py:Timeboard._get_interval_locs_by_period", "timeboard/timeboard.py:Timeboard._get_interval_locs_by_length"]}
{"id": "C79", "title": "What attempts to make timeboards take from iterators of labels", "statement": "If a layout has iterators of labels as patterns or structures, an attempt to construct a timeboard takes from each iterator exactly what the uses want that come before the end of the attempt, be it successful or not: an exception while a span is divided or a pattern applied gives nothing back of the uses before, refused amendments give nothing back at all, and errors in other arguments take nothing. The next attempt continues from there.", "quantifier": "for every layout, however deep, all iterators, finite and endless, all other arguments, and all sequences of attempts", "why_tests_cant": "The tests use iterators in successful constructions only; the state after an exception depends on the place in the layout where it is raised.", "anchors": ["timeboard/core.py:_Timeline.__organize", "timeboard/core.py:_Timeline.__apply_pattern", "timeboard/core.py:_skiperator", "timeboard/timeboard.py:Timeboard.__init__"]}
{"id": "C80", "title": "Layouts that divide further give workshifts within the workshifts of the other", "statement": "If a layout is made from another by changes that divide further - anything in place of a label, a pattern or an empty organizer in place of anything, or more marks (or calendar periods with which the other periods begin) for an organizer that makes each span one workshift - then on the timeboard of the same base units every workshift takes place within one workshift of the other timeboard, whatever the amendments. An interval of the coarser timeboard, given by its times to the finer one, covers the same time and the same number of base units, and holds exactly the parts of its workshifts, at least as many.", "quantifier": "for all layouts, at any depth, all frames, amendments, labels, remembering patterns and intervals", "why_tests_cant": "The tests compare single layouts with lists of expected workshifts; no test relates two layouts.", "anchors": ["timeboard/core.py:_Timeline.__organize", "timeboard/core.py:_Frame.partition_with_marker", "timeboard/core.py:_Frame.partition_at_marks", "timeboard/timeboard.py:Timeboard.get_interval", "timeboard/interval.py:Interval.total_duration"]}
{"id": "C81", "title": "What attempts to make timeboards take from iterators of organizers and patterns", "statement": "If a layout has iterators that yield organizers, patterns and labels, which may use iterators in turn, even the one they come from, then what an attempt to construct a timeboard takes from each iterator is determined by the arguments and by what the iterators are to yield: one element for each span just before the span is organized, until the iterator ends and the elements taken are repeated, and for each pattern over an iterator as many as it wants. An exception while a span is divided or a pattern applied ends this and gives nothing back, refused amendments give nothing back, and errors in other arguments take nothing. The next attempt continues from there.", "quantifier": "for every layout, all iterators, finite and endless, of any elements, all other arguments, and all sequences of attempts which do not end in RecursionError", "why_tests_cant": "No test gives an iterator of organizers, and none looks at an iterator after an exception.", "anchors": ["timeboard/core.py:_Timeline.__organize", "timeboard/core.py:_Timeline.__apply_pattern", "timeboard/core.py:_skiperator", "timeboard/timeboard.py:Timeboard.__init__"]}
{"id": "C82", "title": "Reports by calendar periods add up", "statement": "If an interval holds the workshifts of a row of successive calendar periods (or of periods of several calendar units each), then its number of workshifts, its total duration and its work time, for any duty and schedule, are the sums of those of the intervals that get_interval finds for the periods, where a period for which it raises VoidIntervalError or OutOfBoundsError counts as nothing. The interval of a longer period consisting of the shorter ones is such an interval - as a year and its months - and the interval of the whole timeboard is one for any periods that cover it. No workshift is counted twice or left out, however workshifts lie across the bounds of periods.", "quantifier": "for all timeboards, frequencies, multiples and rows of periods, duties and schedules", "why_tests_cant": "The tests ask for single periods; workshifts across bounds of periods, periods without reference times and clipped periods at the ends come together only in sums.", "anchors": ["timeboard/timeboard.py:Timeboard.get_interval", "timeboard/timeboard.py:Timeboard._get_interval_locs_by_period", "timeboard/interval.py:Interval.count", "timeboard/interval.py:Interval.total_duration", "timeboard/interval.py:Interval.worktime"]}
{"id": "C83", "title": "Parts of intervals in calendar periods", "statement": "If successive calendar periods cover the reference times of the workshifts of an interval, the counts of its overlaps with the intervals of the periods add up to its own count. The number given by count_periods is the sum of what_portion_of of the interval over the intervals of the periods that it touches. If the interval holds exactly the workshifts of the periods, the portions that they have of it add up to one, unless it has no workshifts with the duty.", "quantifier": "for all timeboards, intervals, frequencies, duties and schedules", "why_tests_cant": "Each method is tested by itself with a few intervals; that count_periods, what_portion_of and overlap fit together is not tested.", "anchors": ["timeboard/interval.py:Interval.count_periods", "timeboard/interval.py:Interval.what_portion_of", "timeboard/interval.py:Interval.overlap", "timeboard/timeboard.py:Timeboard.get_interval"]}
