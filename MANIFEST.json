{
 "claims": [
  {
   "property": "C01",
   "status": "proved",
   "theorems": [
    "C01_units",
    "C01_void"
   ],
   "note": "Base units are consecutive calendar periods, first contains start, last covers end; VoidIntervalError exactly when the unit of end precedes that of start, provided the layout itself raises nothing else."
  },
  {
   "property": "C02",
   "status": "proved",
   "theorems": [
    "C02_lookup"
   ],
   "note": "Both directions, and uniqueness of the workshift."
  },
  {
   "property": "C03",
   "status": "proved",
   "theorems": [
    "C03_tile"
   ],
   "note": ""
  },
  {
   "property": "C04",
   "status": "proved",
   "theorems": [
    "C04_own_times"
   ],
   "note": ""
  },
  {
   "property": "C05",
   "status": "partial",
   "theorems": [
    "C05_marks_partial",
    "C05_long",
    "C05_order",
    "C05_refused",
    "C05_refuted",
    "C05_outside_refuted"
   ],
   "note": "False as stated for the last base unit of the timeboard: a mark there is noticed if and only if it is within one second of the start of the unit, hence not in the rest of a long unit and even after the end of the timeboard if the unit is shorter than a second (witnesses). Proved for all other units, and exactly for the last one."
  },
  {
   "property": "C06",
   "status": "proved",
   "theorems": [
    "C06_calendar",
    "C06_fitting"
   ],
   "note": "Multiplied frequencies included (groups counted from the period of the first base unit of the span)."
  },
  {
   "property": "C07",
   "status": "partial",
   "theorems": [
    "C07_aligned_partial",
    "C07_same",
    "C07_inner",
    "C07_inner_same",
    "C07_fitting",
    "C07_inner_fitting",
    "C07_refuted"
   ],
   "note": "Proved for frequency strings of one part, multiplied ones included, for patterns at any depth of a layout, and for all strings if the periods begin with base units. False for strings of several parts such as 1H30T, which are accepted although their periods do not begin with base units (witness)."
  },
  {
   "property": "C08",
   "status": "proved",
   "theorems": [
    "C08_pattern"
   ],
   "note": ""
  },
  {
   "property": "C09",
   "status": "proved",
   "theorems": [
    "C09_tree"
   ],
   "note": ""
  },
  {
   "property": "C10",
   "status": "proved",
   "theorems": [
    "C10_compound"
   ],
   "note": ""
  },
  {
   "property": "C11",
   "status": "proved",
   "theorems": [
    "C11_empty_structure",
    "C11_empty_pattern"
   ],
   "note": ""
  },
  {
   "property": "C12",
   "status": "partial",
   "theorems": [
    "C12_one",
    "C12_history",
    "C12_consecutive_partial",
    "C12_attempt",
    "C12_attempts",
    "C12_refuted"
   ],
   "note": "False as stated: a use on a span that begins inside its calendar period takes labels which are not delivered (witness). Proved: exactly which labels every use delivers over any history of timeboards, and consecutiveness without such uses; exactly what attempts take that raise exceptions."
  },
  {
   "property": "C13",
   "status": "partial",
   "theorems": [
    "C13_never_splits_partial",
    "C13_accepted",
    "C13_split_iff",
    "C13_lengths",
    "C13_refuted"
   ],
   "note": "Proved for frequency strings of one part. Of strings of several parts (1H30T) only the first part is looked at, so that groups are accepted that split base units (witness). Which pairs are accepted, and which periods split base units, is proved exactly, for all strings."
  },
  {
   "property": "C14",
   "status": "proved",
   "theorems": [
    "C14_amendments"
   ],
   "note": ""
  },
  {
   "property": "C15",
   "status": "proved",
   "theorems": [
    "C15_clash",
    "C15_order"
   ],
   "note": "That a failing amendment changes no label is part of the model: all writes come after the loop that can raise (core.py:_Timeline.amend)."
  },
  {
   "property": "C16",
   "status": "proved",
   "theorems": [
    "C16_schedule"
   ],
   "note": ""
  },
  {
   "property": "C17",
   "status": "proved",
   "theorems": [
    "C17_rollforward",
    "C17_bad_duty"
   ],
   "note": "Landing place given by counting; uniqueness and failure exactly when there is none."
  },
  {
   "property": "C18",
   "status": "proved",
   "theorems": [
    "C18_rollback"
   ],
   "note": ""
  },
  {
   "property": "C19",
   "status": "proved",
   "theorems": [
    "C19_there_and_back",
    "C19_same",
    "C19_compose",
    "C19_operators"
   ],
   "note": ""
  },
  {
   "property": "C20",
   "status": "proved",
   "theorems": [
    "C20_pair",
    "C20_whole"
   ],
   "note": "With one point outside and the order reversed (e.g. t1 after the board, t2 on it) the error is VoidIntervalError; the theorem gives the error of each combination."
  },
  {
   "property": "C21",
   "status": "proved",
   "theorems": [
    "C21_length"
   ],
   "note": ""
  },
  {
   "property": "C22",
   "status": "proved",
   "theorems": [
    "C22_period"
   ],
   "note": ""
  },
  {
   "property": "C23",
   "status": "proved",
   "theorems": [
    "C23_unclipped"
   ],
   "note": ""
  },
  {
   "property": "C24",
   "status": "partial",
   "theorems": [
    "C24_closed",
    "C24_refuted"
   ],
   "note": "Proved except that for a clipped period with nothing left the error is OutOfBoundsError, not VoidIntervalError (refuted with a witness)."
  },
  {
   "property": "C25",
   "status": "proved",
   "theorems": [
    "C25_queries",
    "C25_bad_duty",
    "C25_other_duties"
   ],
   "note": ""
  },
  {
   "property": "C26",
   "status": "proved",
   "theorems": [
    "C26_on_off",
    "C26_pieces"
   ],
   "note": ""
  },
  {
   "property": "C27",
   "status": "proved",
   "theorems": [
    "C27_overlap",
    "C27_algebra"
   ],
   "note": ""
  },
  {
   "property": "C28",
   "status": "proved",
   "theorems": [
    "C28_portion",
    "C28_pieces"
   ],
   "note": "Division is exact (rational); for the floats that Python returns see C64."
  },
  {
   "property": "C29",
   "status": "proved",
   "theorems": [
    "C29_count",
    "C29_zero"
   ],
   "note": "Division is exact (rationals); for the floats that Python returns see C64."
  },
  {
   "property": "C30",
   "status": "partial",
   "theorems": [
    "C30_errors",
    "C30_unsupported",
    "C30_partial",
    "C30_refuted"
   ],
   "note": "False as stated: every touched period must be inside the timeboard, not only those of the first and last workshift counted. Proved: exactly when there is an error and which (that of the first touched period with something wrong), and the claim when the ends of the interval lie in the periods of the first and last workshifts counted."
  },
  {
   "property": "C31",
   "status": "proved",
   "theorems": [
    "C31_duration",
    "C31_worktime",
    "C31_labels",
    "C31_workshift"
   ],
   "note": "Labels given by a partial function to rationals; a label with no number makes worktime a TypeError."
  },
  {
   "property": "C32",
   "status": "proved",
   "theorems": [
    "C32_dataframe",
    "C32_interval"
   ],
   "note": ""
  },
  {
   "property": "C33",
   "status": "proved",
   "theorems": [
    "C33_step",
    "C33_history"
   ],
   "note": ""
  },
  {
   "property": "C34",
   "status": "partial",
   "theorems": [
    "C34_once",
    "C34_interleaving",
    "C34_nested",
    "C34_refuted"
   ],
   "note": "False as stated: loops over one Interval object share one generator. Proved: every single loop, and the exact outcome of every interleaving."
  },
  {
   "property": "C35",
   "status": "partial",
   "theorems": [
    "C35_constructor",
    "C35_negative",
    "C35_negative_refuted"
   ],
   "note": "Locations beyond both ends are refused and proper ones are well-formed; what negative ones give is proved exactly; the documented refusal of negative locations is false of the code (witness Workshift(tb,-1))."
  },
  {
   "property": "C36",
   "status": "proved",
   "theorems": [
    "C36_after",
    "C36_before"
   ],
   "note": ""
  },
  {
   "property": "C37",
   "status": "partial",
   "theorems": [
    "C37_marks_partial",
    "C37_negative",
    "C37_cuts_partial",
    "C37_every",
    "C37_every_cuts",
    "C37_refuted"
   ],
   "note": "False for offsets of mixed sign (months=1, days=-31 puts the mark of February outside February). Proved for offsets without negative components and for negative offsets; every frequency and range; and exactly which marks and cuts offsets of any signs give."
  },
  {
   "property": "C38",
   "status": "proved",
   "theorems": [
    "C38_marks",
    "C38_unique",
    "C38_exists",
    "C38_refused",
    "C38_calendar",
    "C38_invalid",
    "C38_cuts",
    "C38_inspected",
    "C38_weeks_refuted"
   ],
   "note": "Both versions of the function. when.py: for periods made of whole months (years, quarters, months, also multiplied). For periods finer than a month the function raises ValueError (witness)."
  },
  {
   "property": "C39",
   "status": "partial",
   "theorems": [
    "C39_us",
    "C39_uk",
    "C39_ru",
    "C39_custom_refuted"
   ],
   "note": "The exact outcome for all arguments is proved: which error, or a calendar with the right bounds and the right hours of every day. The claim itself is false in one case: with long_weekends=False a custom amendment for a fixed-date holiday raises the duplicate-amendment KeyError (witness)."
  },
  {
   "property": "C40",
   "status": "partial",
   "theorems": [
    "C40_uk",
    "C40_ru",
    "C40_us_partial",
    "C40_us_refuted"
   ],
   "note": "UK and RU: as stated. US: false for 31 Dec before a Saturday New Year when the calendar ends in that year (witness), and for 26 Dec 2018 when it starts after 2014; proved for every other day."
  },
  {
   "property": "C41",
   "status": "partial",
   "theorems": [
    "C41_skips_partial",
    "C41_every_partial",
    "C41_nth",
    "C41_easter_partial",
    "C41_found",
    "C41_nth_found",
    "C41_easter_found",
    "C41_far_refuted",
    "C41_refuted",
    "C41_nano_refuted"
   ],
   "note": "Proved for base units of a second or longer; false for shorter ones (witness). C41_found, C41_nth_found, C41_easter_found: exactly what is recorded for base units of any length and multiple. Also for offsets of mixed signs or with absolute keywords, and for the other two functions. Witness: a mark further back than one period length is not found."
  },
  {
   "property": "C42",
   "status": "proved",
   "theorems": [
    "C42_easter",
    "C42_marks",
    "C42_every",
    "C42_periods",
    "C42_cuts",
    "C42_periods_cuts",
    "C42_default_refuted",
    "C42_months_refuted"
   ],
   "note": "Witnesses: with no offset given the mark is Easter Monday; periods that do not hold the Easter of the year they end in make the call fail (proved: exactly these)."
  },
  {
   "property": "C43",
   "status": "proved",
   "theorems": [
    "C43_extend"
   ],
   "note": ""
  },
  {
   "property": "C44",
   "status": "partial",
   "theorems": [
    "C44_weekday_partial",
    "C44_refuted"
   ],
   "note": "False if all five weekdays next to the weekend are amended (witness); proved otherwise."
  },
  {
   "property": "C45",
   "status": "proved",
   "theorems": [
    "C45_dates",
    "C45_units",
    "C45_periods",
    "C45_sum",
    "C45_length"
   ],
   "note": "The calendar (pandas periods) as modelled; all other theorems rest on it."
  },
  {
   "property": "C46",
   "status": "proved",
   "theorems": [
    "C46_offset",
    "C46_refused"
   ],
   "note": "The offset arithmetic of pandas/dateutil as modelled; the marks of C37, C41 and C42 rest on it."
  },
  {
   "property": "C47",
   "status": "proved",
   "theorems": [
    "C47_point",
    "C47_workshift",
    "C47_pair",
    "C47_whole",
    "C47_length",
    "C47_period",
    "C47_other"
   ],
   "note": ""
  },
  {
   "property": "C48",
   "status": "partial",
   "theorems": [
    "C48_refused",
    "C48_errors",
    "C48_nat",
    "C48_schedule",
    "C48_period_refuted"
   ],
   "note": "False if `period` is given with a pandas.Period: it is ignored (witness). Every other combination proved; what NaT does as a point in time is excluded."
  },
  {
   "property": "C49",
   "status": "proved",
   "theorems": [
    "C49_interval",
    "C49_bad_bounds",
    "C49_no_board",
    "C49_workshift"
   ],
   "note": ""
  },
  {
   "property": "C50",
   "status": "proved",
   "theorems": [
    "C50_reference",
    "C50_default",
    "C50_worktime"
   ],
   "note": ""
  },
  {
   "property": "C51",
   "status": "partial",
   "theorems": [
    "C51_cuts",
    "C51_skips_partial",
    "C51_skips",
    "C41_refuted",
    "C51_fails",
    "C51_how",
    "C51_start",
    "C51_start_every",
    "C51_nth",
    "C51_easter",
    "C51_easter_periods",
    "C51_unsuited",
    "C51_function"
   ],
   "note": "The distances to marks outside the span are proved for marks that are starts of base units, as every named function returns for base units that are not multiplied, and for base units of a second or longer (for shorter ones false, witness). C51_skips: exactly what is recorded, for any marks and base units."
  },
  {
   "property": "C52",
   "status": "partial",
   "theorems": [
    "C52_organizer",
    "C52_refused",
    "C52_keys",
    "C52_complete",
    "C52_accepted",
    "C52_list",
    "C52_iterable_refuted"
   ],
   "note": "False for a RememberingPattern as a layout: it is iterable, but Timeboard raises TypeError (witness). Everything else proved. Without base_unit_freq the constructor raises KeyError. What NaT does as a key is excluded."
  },
  {
   "property": "C53",
   "status": "proved",
   "theorems": [
    "C53_builds",
    "C53_unusable",
    "C53_reason",
    "C53_plain"
   ],
   "note": "The reasons are those of the divider (C06, C13, C51) and of the pattern; how spans are divided is the subject of C05, C06, C51. Unsuitable types of arguments are the subject of C52."
  },
  {
   "property": "C54",
   "status": "proved",
   "theorems": [
    "C54_times",
    "C54_back",
    "C54_order"
   ],
   "note": ""
  },
  {
   "property": "C55",
   "status": "partial",
   "theorems": [
    "C47_point",
    "C55_overlap_refuted",
    "C55_error_refuted",
    "C55_bounds_refuted"
   ],
   "note": "Lookup by a workshift of another timeboard goes by its time (proved). False of overlap and of the Interval constructor, which go by position and do not compare the timeboards (witnesses)."
  },
  {
   "property": "C56",
   "status": "proved",
   "theorems": [
    "C56_read",
    "C56_organizer",
    "C56_timeboard",
    "C56_marker",
    "C56_function"
   ],
   "note": "Names and expressions, not characters; what repr shows of labels and remembering patterns is opaque. A marker whose how is a function is shown with text that Marker refuses (C56_function)."
  },
  {
   "property": "C57",
   "status": "partial",
   "theorems": [
    "C57_refused",
    "C57_plain",
    "C57_choice",
    "C57_error",
    "C57_amended",
    "C57_text",
    "C57_one_text",
    "C57_as_times",
    "C57_base",
    "C57_preset",
    "C57_text_refuted"
   ],
   "note": "Proved for classes whose parameters give start and end as Timestamps. With strings any custom bound raises TypeError (C57_text, C57_text_refuted)."
  },
  {
   "property": "C58",
   "status": "proved",
   "theorems": [
    "C58_workshift",
    "C58_interval",
    "C58_same",
    "C58_timeboard"
   ],
   "note": "The text as a list of its parts: how an integer, a name, a frequency and a Period are written is left to Python and pandas."
  },
  {
   "property": "C59",
   "status": "proved",
   "theorems": [
    "C59_build",
    "C59_duty",
    "C59_asked",
    "C59_add"
   ],
   "note": ""
  },
  {
   "property": "C60",
   "status": "partial",
   "theorems": [
    "C60_step_partial",
    "C60_history_partial",
    "C60_new",
    "C60_other",
    "C60_refuted",
    "C60_schedules_refuted"
   ],
   "note": "Proved for not_in_range of ignore or raise, and for schedules made after the calls. Other values of not_in_range are taken for ignore, against the documentation, and schedules made before the calls keep their lists of workshifts (witnesses)."
  },
  {
   "property": "C61",
   "status": "partial",
   "theorems": [
    "C61_plain",
    "C61_uses",
    "C61_endless",
    "C61_first",
    "C61_used_up",
    "C61_remembering",
    "C61_refuted"
   ],
   "note": "Proved for all uses what each takes and makes of it; the repetition holds within each use. Uses after the end of a finite iterator leave the default labels (C61_used_up), against the documentation (C61_refuted). Iterators whose elements are organizers or patterns: C66."
  },
  {
   "property": "C62",
   "status": "partial",
   "theorems": [
    "C62_interval",
    "C62_text",
    "C62_workshift",
    "C62_duration",
    "C62_duty",
    "C62_partial",
    "C62_none_refuted",
    "C62_nan_refuted",
    "C62_period_refuted"
   ],
   "note": "Exact for all mixtures of labels (C62_interval, C62_workshift); the agreement of an interval with its workshifts holds without missing labels and Periods. False with None or NaN, which intervals leave out, and with a Period, to which 0 can be added (witnesses)."
  },
  {
   "property": "C63",
   "status": "partial",
   "theorems": [
    "C63_marks_partial",
    "C46_offset",
    "C46_refused",
    "C37_every",
    "C37_every_cuts",
    "C63_refuted"
   ],
   "note": "False as stated: only the end of the period is compared, so day=15 for weeks marks the week of 30 January on 15 January. Proved for periods of whole months with keywords that keep year and month (day, time, weekday forwards, added parts not negative), and without day for periods of whole days; C37_every says exactly which marks any other combination gives."
  },
  {
   "property": "C64",
   "status": "proved",
   "theorems": [
    "C64_nearest",
    "C64_unique",
    "C64_portion",
    "C64_halves",
    "C64_count",
    "C64_pieces_refuted",
    "C64_sum_refuted"
   ],
   "note": "Doubles as rational numbers; quotients and sums are the nearest doubles, ties to even. Not claimed, and false: that portions of the pieces of a part add up to its portion (C64_pieces_refuted), that a count over several periods is the nearest double (C64_sum_refuted)."
  },
  {
   "property": "C65",
   "status": "proved",
   "theorems": [
    "C65_steps",
    "C65_exact",
    "C65_error",
    "C65_pieces_refuted"
   ],
   "note": "Floats as rational numbers; numbers beyond the range of doubles are excluded by the bound. Not claimed, and false: that the work times of two parts of an interval add up to that of the whole (C65_pieces_refuted)."
  },
  {
   "property": "C66",
   "status": "proved",
   "theorems": [
    "C66_plain",
    "C66_stands",
    "C66_enough",
    "C66_deeper",
    "C66_uses",
    "C66_labels",
    "C66_itself"
   ],
   "note": "The depth of calls is a parameter; a run that ends at some depth has the same result at any greater one (C66_deeper), and every layout that stands for one without iterators has a depth that is enough (C66_enough). Layouts over their own iterator without end have none (C66_itself)."
  },
  {
   "property": "C67",
   "status": "proved",
   "theorems": [
    "C67_plain",
    "C67_amounts",
    "C67_exists",
    "C67_once",
    "C67_again",
    "C67_attempt",
    "C67_list_refuted"
   ],
   "note": "Which layout with lists a layout with iterators amounts to is defined by `amounts`, and exists exactly once for every timeboard. Endless iterators, with which the construction does not end, are excluded. C67_list_refuted: an iterator and a list of the same points are not interchangeable."
  },
  {
   "property": "C68",
   "status": "partial",
   "theorems": [
    "C68_calendar",
    "C68_offsets",
    "C68_offsets_same",
    "C68_weekdays",
    "C68_weekdays_same",
    "C68_easter",
    "C68_easter_same",
    "C68_label",
    "C68_offset_skips",
    "C68_weekday_skips",
    "C68_easter_skips",
    "C68_reach",
    "C68_easter_reach",
    "C68_longest",
    "C68_cycle_refuted",
    "C68_multiple_refuted",
    "C68_reach_refuted"
   ],
   "note": "Agreement of any two successfully built timeboards is proved in full. The last sentence is proved for all frequencies (C68_reach with C68_longest) but the years that begin in March to July, for which it is false (C68_reach_refuted)."
  },
  {
   "property": "C69",
   "status": "proved",
   "theorems": [
    "C69_workshift",
    "C69_pair",
    "C69_period",
    "C69_queries",
    "C69_worktime",
    "C69_portion",
    "C69_count_periods",
    "C69_forward",
    "C69_back",
    "C69_units",
    "C69_calendar"
   ],
   "note": "Proved from the exact characterisation of each query. C69_beyond_ex shows that count_periods may differ when a touched period is not in the time in common."
  },
  {
   "property": "C70",
   "status": "proved",
   "theorems": [
    "C70_build",
    "C70_lookup",
    "C70_interval",
    "C70_workshift",
    "C70_schedules",
    "C70_duties"
   ],
   "note": "Labels are values of any type; labels that are iterable are patterns (C62) and outside this claim."
  },
  {
   "property": "C71",
   "status": "proved",
   "theorems": [
    "C71_inside",
    "C71_pieces",
    "C71_whole",
    "C71_bounds",
    "C71_one",
    "C71_worktime",
    "C71_whole_refuted"
   ],
   "note": "Numbers are exact rationals; for floats see C64. C71_whole_refuted shows that the condition on the two parts is needed."
  },
  {
   "property": "C72",
   "status": "proved",
   "theorems": [
    "C72_units",
    "C72_durations",
    "C72_marks_refuted"
   ],
   "note": "Base units and periods of the layout have frequencies with one part (no compound names), as C05 needs. C72_marks_refuted shows that the condition on marks is needed."
  },
  {
   "property": "C73",
   "status": "proved",
   "theorems": [
    "C73_nth",
    "C73_nth_last",
    "C73_count",
    "C73_reach"
   ],
   "note": ""
  },
  {
   "property": "C74",
   "status": "proved",
   "theorems": [
    "C74_moved",
    "C74_periods",
    "C74_from_start",
    "C74_weekday",
    "C74_easter",
    "C74_easter_refuted"
   ],
   "note": "The functions of markers are any that give points T later for periods T later; C74_from_start, C74_weekday and C74_easter give the ones of when.py. Orthodox Easter is not covered: its formula changes at the year 1600."
  },
  {
   "property": "C75",
   "status": "partial",
   "theorems": [
    "C75_checked",
    "C75_wrapped",
    "C75_days",
    "C75_lookup",
    "C75_start_refuted",
    "C75_far_refuted",
    "C75_end_refuted"
   ],
   "note": "Exact for both kinds of pandas. With one that wraps around the claim is false: the check lets through frames of a single base unit that begins before the range, frames as long as the whole range, and, with bounds that are not Timestamps, others (C75_start_refuted, C75_far_refuted). With either, a last base unit that ends after the range makes every lookup fail (C75_end_refuted)."
  },
  {
   "property": "C76",
   "status": "partial",
   "theorems": [
    "C76_same",
    "C76_when",
    "C76_around_refuted",
    "C76_twice_refuted"
   ],
   "note": "C76_same holds for everything in the statement but for one case: with base units of a nanosecond an element of `at` that is given twice makes the construction fail (C76_twice_refuted); there only the order is proved to be of no matter. C76_around_refuted shows why a pattern under a marker is left out of the statement. Elements of `at` must not fail in different ways (C76_when: those of when.py do not)."
  },
  {
   "property": "C77",
   "status": "proved",
   "theorems": [
    "C77_opposite",
    "C77_covered"
   ],
   "note": ""
  },
  {
   "property": "C78",
   "status": "proved",
   "theorems": [
    "C78_again",
    "C78_open",
    "C78_halves",
    "C78_periods"
   ],
   "note": ""
  },
  {
   "property": "C79",
   "status": "proved",
   "theorems": [
    "C79_attempt",
    "C79_attempts"
   ],
   "note": ""
  },
  {
   "property": "C80",
   "status": "proved",
   "theorems": [
    "C80_layouts",
    "C80_marks",
    "C80_none",
    "C80_periods",
    "C80_interval"
   ],
   "note": ""
  },
  {
   "property": "C81",
   "status": "proved",
   "theorems": [
    "C81_attempt",
    "C81_attempts",
    "C81_enough"
   ],
   "note": "RecursionError is left out: how deep calls may go is a parameter of the model"
  },
  {
   "property": "C82",
   "status": "proved",
   "theorems": [
    "C82_sums",
    "C82_longer",
    "C82_nested",
    "C82_whole"
   ],
   "note": ""
  },
  {
   "property": "C83",
   "status": "proved",
   "theorems": [
    "C83_parts",
    "C83_count",
    "C83_shares"
   ],
   "note": ""
  }
 ]
}