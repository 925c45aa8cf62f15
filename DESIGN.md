# Formal model of timeboard: design

Subject: `mmamaev/timeboard` (Python), sources in `/repo/timeboard`, read as text.
Tool: Coq/Rocq 8.16.1, standard library only.  Sources: `rocq/theories/` (logical name `Verif`).

## 1. Shape of the model

A shallow, executable Gallina model which mirrors the Python functions branch by branch.
Exceptions are values (`res A = Ok a | Err e`, one constructor of `err` per exception class).
Every definition cites the file and lines it models.

| file | models |
|---|---|
| `Base.v` | result type, Python list indexing, `searchsorted`, `nonzero`, ranges |
| `Civil.v` | proleptic Gregorian calendar (days <-> months), the part of pandas that knows month lengths |
| `Freq.v` | pandas period frequencies N/ns, U/us, L/ms, S, T/min, H, D, W[-day], M, Q[-month], A[-month]/Y with positive integer multipliers, strings of several parts such as `1H30T`; period ordinal / start / end; `is_subperiod`; `_check_groupby_freq`, `get_freq_delta` |
| `Frame.v` | `_Frame`: construction, lookup, `partition_at_marks`, `partition_with_marker` |
| `When.v` | mark generators of `when.py` |
| `Timeline.v` | `Organizer`, patterns, `RememberingPattern`, `_Timeline` |
| `Board.v` | `_Schedule`, `Workshift`, `Interval`, `Timeboard` |
| `Api.v` | the same entry points on arguments of any type: `Timeboard.__call__`, `get_workshift`, `get_interval`, constructors of `Interval`, `_VoidInterval`, `Workshift`, with their type checks |
| `Setup.v` | the constructors `Marker`, `Organizer`, `Timeboard` on arguments as the user writes them: `how` by name, single values for lists, layouts and labels of any kind, type checks, keys of `amendments` of any type |
| `Leftover.v` | the state in which the constructor leaves the remembering patterns, also when it raises an exception |
| `Calendars.v` | `calendars/*` |
| `UserCal.v` | `CalendarBase`: `parameters`, `amendments`, `_check_time`, `_get_bounds`, `__new__`, for a class with any parameters and any `amendments` method; `start` and `end` of the class as Timestamps or as strings |
| `Revise.v` | `_Timeline.amend` and `reset` called on a timeline in use; selectors that raise exceptions |
| `Iterate.v` | the constructor of timeboards with iterators of labels as patterns and structures |
| `ItLeftover.v` | the state in which the constructor leaves iterators of labels, also when it raises an exception |
| `DeepLeftover.v` | the same for iterators of organizers and patterns |
| `Labels.v` | work time from labels that are ints, floats, strings, None, NaN or Periods (pandas' sum of objects) |
| `Text.v` | `compact_str`, `__repr__`, `__str__` of Workshift, Interval, _VoidInterval; `Timeboard.compact_str`; parts of text, not characters |
| `Print.v` | `Organizer._repr_builder`, `Organizer.__repr__`, the layout in `Timeboard.__repr__`; lines of names and expressions, not strings |
| `Rounding.v` | division and addition of Python floats; `what_portion_of` and `count_periods` computed with them |
| `RoundingLabels.v` | `_sum_labels` and `worktime` with labels that are floats, added as doubles |
| `Deep.v` | layouts with iterators whose elements are organizers, patterns or labels, also over the same iterators |
| `IterMarks.v` | layouts with iterators as `marks`; what attempts leave of them |
| `Range.v` | the frame and `get_loc` with timestamps of 64 bits, for a pandas that checks the range and for one that wraps around |
| `PrintMarker.v` | `Marker.__repr__` and the call it shows; arguments, not characters |
| `Spec.v`, `SpecLookup`, `SpecRoll`, `SpecQuery`, `SpecMisc`, `SpecInterval`, `SpecLayout`, `SpecRemember`, `SpecLeftover`, `SpecWhen`, `SpecCal`, `SpecCivil`, `SpecApi`, `SpecSetup`, `SpecBuild`, `SpecPrint`, `SpecRevise`, `SpecIterate`, `SpecLabels`, `SpecRounding`, `SpecRoundingLabels`, `SpecDeep`, `SpecIterMarks`, `SpecMove`, `SpecRange`, `SpecAlike`, `SpecOpposite`, `SpecSides`, `SpecItLeftover`, `SpecFiner`, `SpecDeepLeftover`, `SpecReport`, `SpecRelabel`, `SpecSame`, `SpecShare`, `SpecText`, `SpecUnit`, `SpecUserCal` | specifications, stated without the model's helper functions |
| `*Proofs.v` | lemmas and proofs |
| `Samples.v` | timeboards used in the examples |
| `Prop*.v` | only the final theorems (closed by `exact`), their examples and `Print Assumptions`: `PropLookup` C01-C04, C35, C36; `PropRoll` C16-C19; `PropQuery` C25-C28, C31; `PropMisc` C14, C15, C32-C34; `PropInterval` C20-C24; `PropCount` C29, C30; `PropLayout` C05-C13; `PropWhen` C37, C63, C38, C41, C42; `PropCal` C38-C40, C43, C44; `PropCivil` C45, C46; `PropApi` C47-C49; `PropSettings` C50; `PropSetup` C51, C52; `PropBuild` C53-C55; `PropPrint` C56; `PropUserCal` C57; `PropText` C58; `PropRevise` C59, C60; `PropIterate` C61; `PropLabels` C62; `PropRounding` C64; `PropRoundingLabels` C65; `PropDeep` C66; `PropIterMarks` C67; `PropSame` C68; `PropShare` C69; `PropRelabel` C70; `PropAdd` C71; `PropUnit` C72; `PropStep` C73; `PropMove` C74; `PropRange` C75; `PropAlike` C76; `PropOpposite` C77; `PropSides` C78; `PropItLeftover` C79; `PropFiner` C80; `PropDeepLeftover` C81; `PropReport` C82; `PropPortion` C83 |
| `Conf*.v` | the project's own tests, translated by `tools/tests2coq.py`, and the examples of its documentation, by `tools/docs2coq.py` (`ConfDocs*.v`), as examples about the model (see section 2) |

Representation choices

* Time is `Z` nanoseconds since 1970-01-01 (pandas' own unit), unbounded: the Timestamp limits
  (1677..2262) and the resulting overflow errors are not modelled.
* A pandas period of frequency `n x f` is an ordinal of the base frequency; it starts at
  `pstart f o` and ends one nanosecond before `pstart f (o+n)`; `period_range(s, e, freq)` is the
  arithmetic progression of ordinals from `ord s` to `ord e` with step `n` (pandas >= 0.24 semantics).
* Labels are elements of an arbitrary type `L`; selectors are arbitrary total functions `L -> bool` (in `Revise.v` they may raise: `L -> res bool`).
* Positions are `Z`, so that Python's negative indexing is visible in the model.
* `np.searchsorted` on an ascending array is modelled as the number of elements < x (left) or <= x (right).
* Calendars: labels are integers (hours); a date is a day number; a key of an amendments dictionary
  is either a string, which stands for its date, or a timestamp (`KStr`/`KTs`), since the code mixes
  the two and they are never equal keys.  `custom_amendments` is a list of (timestamp, hours) items;
  string keys in it are not modelled.
* `while` loops have fuel, proved sufficient (`EFuel` is never returned).
* Floats are rational numbers `Q`. `count_periods` and `what_portion_of` are modelled twice, with exact arithmetic
  (C28-C30) and with the rounding of doubles (`Rounding.v`, C64); sums of labels likewise (`Labels.v`, C62; `RoundingLabels.v`, C65).

## 2. Trusted base

* Coq's kernel (incl. `vm_compute`), and what `Print Assumptions` lists under each theorem
  (every theorem so far: "Closed under the global context").
* That the Gallina definitions say what the cited Python lines do, and that pandas/numpy/itertools
  behave as described in the comments of `Base.v`, `Civil.v`, `Freq.v` (no code is run here).

Conformance tests.  Nothing of the project can be run here, so the fidelity of the model is tested
against the project's own test suite.  `tools/tests2coq.py` reads `/repo/timeboard/tests` as text
(Python `ast`, nothing is imported) and writes one `Example` per test function into `Conf*.v`: the
calls of the test become calls of the model's functions, its `assert`s become boolean checks, and
`pytest.raises` becomes a check of the model's error.  Every example holds by `vm_compute`.
484 of the 523 test functions are translated; `python3 tools/tests2coq.py -l` lists the others, with
the reason.  The tests of the whole RU,
US and UK calendars (about a minute each, and far more in `coqchk`) are not part of the build: with
`--all` they are written to `ConfCalendarsRu.v`, `…Us.v`, `…Uk.v`; all were run once and hold.  These examples are
tests of the model on fixed inputs; no claim rests on them.

`tools/docs2coq.py` does the same with the documentation (`doc/source/*.rst`, `README.rst` and the
docstrings), which shows outputs of the real program: 323 printed results (numbers, the texts of
workshifts and intervals, whole tables, exceptions) are compared with what the model gives, and agree.
Those with a whole calendar (`ConfDocsLong.v`, with `--all`) were run once and hold.  Five slips of the
documentation are corrected before the comparison (`TYPOS`), and four outputs are not what the code
does (`WRONG`; the example states that they differ): `count_periods('W')` in a docstring of `interval.py`
(641) raises PartialOutOfBoundsError, which is not an OutOfBoundsError; the docstrings of the RU and UK
calendars give ends that were moved since (RU.py:153, UK.py:172); that of the US calendar gives midnight
of the last day instead of its end (US.py:136).

`tools/coverage.py` lists the statements of `/repo/timeboard` (outside its tests) whose lines no comment
of the model cites.

Not modelled: string parsing of timestamps, `NaT` as a point in time (its outcome is a parameter of the
theorems in `PropApi`), tuples inside tuples, time zones,
pandas Timestamp range limits (but for the frame itself: C75), business frequencies, other spellings of frequencies (lower case, fractions such as `1.5H`, negative numbers), how values
are written as text (what `{!r}` shows of numbers, names, Periods, labels and patterns; `Text.v` and `Print.v` stop there), labels that numpy would unpack
(tuples), `at` of a marker with unknown keywords or with the keywords microsecond(s), nanosecond(s), n and normalize of DateOffset, dictionaries and sets as layouts, endless iterators as `marks`, what a construction that ends in RecursionError takes from iterators of organizers and patterns (other failures: C81; for RememberingPatterns: C12; for iterators of marks: C67; of labels: C79), `not_in_range` argument of `_Frame.get_loc`.

## 3. Properties: what is modelled and how it is proved

(The status of each property is kept in `MANIFEST.json`.)

* **C01** `mk_frame`; ordinals form an arithmetic progression; order/Galois lemmas for `pord`/`pstart` of every frequency (Gregorian part by 400-year periodicity plus a finite sweep of 146097 days).
* **C02** `get_ws_position`/`_locate`/`get_workshift`; `searchsorted` characterised on strictly increasing starts; masks give the workshift.
* **C03** Timeline invariant: the list of first units starts with 0, is strictly increasing and below the number of units; established for every organizer tree by induction.
* **C04** Corollary of C02/C03.
* **C05** `partition_at_marks`; cut set = set of units hit by marks. False at the last unit of the frame: `_refuted` with a witness; positive version `_partial` with the exact exception.
* **C06** `partition_with_marker` without `at`; boundary positions <-> change of `pord`; skip count = ordinal distance.
* **C07** Corollary of C06 and of the pattern semantics; at any depth of a layout by following the innermost organizer (`SpecLayout.governs`).  Refuted for strings of several parts; proved for all strings under the condition that is wanting, `SpecLayout.fits` (periods begin with base units).
* **C08** Timeboard construction with a list layout.
* **C09** A separate pull-style semantics of organizer trees (label of a unit by descending the tree) in the specification file; refinement theorem push = pull by induction on the tree.
* **C10** Instance of the refinement, stated on the timeline's workshifts.
* **C11** Same, for empty structure / patterns.
* **C12** RememberingPattern heap; the trace of delivered labels is a prefix of the cycle, by induction over histories of uses.  An attempt that raises an exception takes what was used until then: `used_until`, exclusive with `used` and unique; histories of attempts.
* **C13** `is_subperiod` and regex logic on structured frequency names; soundness by cases over all frequency pairs using order lemmas; which pairs are accepted, exactly, by a sweep over all names.  Refuted for strings of several parts; no unit is split iff `fits`, which for periods of fixed length is divisibility of the lengths and a fitting first period (`C13_split_iff`, `C13_lengths`).
* **C14** `amend` as fold over items; pointwise characterisation of the resulting labels.
* **C15** Error iff two keys share a workshift; permutation invariance.
* **C16** `mk_schedule`: nonzero of selector map and of its complement.
* **C17** Counting specification over positions; list lemmas on ascending index lists.
* **C18** Mirror of C17.
* **C19** Corollaries of C17/C18 characterisation.
* **C20** Case analysis of `_locate` and `_locations_in_order`.
* **C21** Same for `_get_interval_locs_by_length`.
* **C22** By-reference search lemmas (C36) plus clipping logic; for a period without workshifts the error is decided by whether the period lies inside the timeboard.
* **C23** Same with clip_period = False.
* **C24** `_strip_interval_locs`; expected to be refuted at clipped edges (OutOfBoundsError instead of VoidIntervalError).
* **C25** `_find_my_bounds_in_idx` loops characterised; all queries against the filtered list of positions.
* **C26** Corollary of C25.
* **C27** Interval algebra on positions.
* **C28** Rational arithmetic on counts.
* **C29** `count_periods` with period index; sum over periods specification.
* **C30** Expected to be refuted (PartialOutOfBoundsError escapes); positive part proved, and the error exactly: that of the first touched period that cannot be counted (`wrong`).
* **C31** Vectorised durations = per-workshift durations; sums.
* **C32** `to_dataframe` rows.
* **C33** State machine over add/drop operations against an abstract finite map.
* **C34** Interval object with generator state; refuted for nested iteration, proved for uninterrupted iteration.
* **C35** Constructor with Python negative indexing; refuted for negative locations, for which `C35_negative` says what they give.
* **C36** Linear search loops by fuel = number of workshifts, shown sufficient.
* **C37** `from_start_of_each` with DateOffset arithmetic; `C37_every` describes the marks for offsets of any signs (`mark_upto`, `goes_back`), from which the case of one sign follows.
* **C38** `nth_weekday_of_month` (both versions).
* **C39** The exact outcome of building a calendar, for all options: which error, or which hours on each day, against day-by-day rules in `SpecCal` (the RU transfers of days are restated there as separate tables).  Year sweeps by `vm_compute`, lifted by `forallb_forall`.
* **C40** Corollary of the outcome for two ranges; the US `long_weekends` option is refuted.
* **C41** The skip counts of `partition_with_marker` with `at` markers of `from_start_of_each`, via the sorted list of marks around the span.
* **C42** `from_easter`; dateutil's formula equals the formulas of `SpecWhen` for 1583..4099 by a sweep; mark lists by induction on the years.  Default argument and monthly periods refuted; `C42_periods` is exact for periods of any length and offsets of any signs.
* **C43** `extend_weekends`: invariant of the loop over the sorted holidays; fuel of the search shown sufficient.
* **C44** Refuted; partial: a weekend day is added only next to a working week that is entirely amended.
* **C45** The day numbers, months and period starts used by all the other statements follow the Gregorian rules (`SpecCivil` states leap years, month lengths and the next date from scratch); what each frequency string names (`C45_sum`: the parts of a string added up), and the period length (taken in July 2016) that limits the look-back of C41.
* **C46** `add_offset` (pandas' `DateOffset` addition) against dates in `SpecWhen.offset_means`; the keywords in the singular (`DSet`) as in dateutil's `relativedelta.__radd__`, errors in `offset_error` (`C46_refused`; a month out of range to which months are added is in the model, but no theorem is about it).
* **C47** The type checks of `__call__`/`get_workshift`/`get_interval` (`Api.v`) dispatch to the functions of `Board.v`; C02, C20-C22 transfer.
* **C48** All refused combinations listed in `SpecApi.refused`; every error of `get_interval` is a bounds error or belongs to the list. Refuted for `period` given together with a `pandas.Period`.
* **C49** Case analysis of the constructors.
* **C50** Invariant of boards made with given arguments (construction, `add_schedule`, `drop_schedule`); durations by the timeline invariant of C03.
* **C51** `partition_with_marker` with `at` for an arbitrary function (the lemmas behind C37 and C41 are stated for any list of points); the four names as instances, joined with the marks of C37, C38, C42.
* **C52** `Setup.v` against `SpecSetup`: `fault` (what is wrong, in order), `same_args` (what the arguments stand for); where nothing is wrong the constructor equals the one of `Board.v`, so that all other theorems apply (C08 in particular).  Refuted for a RememberingPattern as layout.
* **C53** by induction on the layout: the fate of `organize` does not depend on labels or remembering patterns; it succeeds on a span iff no part that comes to be used (`SpecBuild.used`, the relation of C09 without the leaf condition) is `unusable`.  Joined with C15 (amendments) and C01 (range).  C53_plain instantiates it with C05, C06 and C13.
* **C54** from the boundaries of workshifts (C03) and C20.
* **C55** C47_point for lookup; two sample timeboards as witnesses against the rest.
* **C56** lines read in order with an environment (`SpecPrint.reads`, a relation shown to be functional); induction on the size of the object, with the invariant that the environment holds, with an object, all its parts.  Hypothesis: equal identities are equal objects, as in Python.
* **C57** the bounds by cases; the labels from C14 and C15 for the arguments with the chosen bounds; CalendarBase itself from C08, C53, C50.  `C57_preset`: the constructors of `Calendars.v` are instances of the general one, so that C39, C40 speak of the same function.
* **C58** the parts of the text by computation from C50 (`has_units`) and C32; equal texts have equal positions (the text begins with them), therefore equal ends, therefore equal names.
* **C59** the selector as a function to `res bool`, applied label by label; induction over the labels.
* **C60** one call: the first wrong item of the dictionary, by induction over the items; then induction over the calls, whose effect does not depend on the labels before.
* **C61** a layout with iterators is *unrolled* on a span to one without, which does the same (induction on the layout); the uses of iterators (`SpecIterate.asked`, a relation shown to be functional) are joined in order with what is to come from each iterator.  The leaves of the unrolled layout do what C09 says.  RememberingPatterns by a simulation between the heap and the iterators.
* **C62** the sum of objects from the left, by induction on the labels for each type of the sum so far; every result is one of the three kinds.  The positions of the workshifts as in C31.
* **C63** an absolute offset that keeps year and month does not go before the first of the month, hence the marks are those of C37.
* **C64** scaling by the power of two that leaves 53 digits makes nearest doubles nearest integers; each rounding errs by at most 1 part in 2^53 and three are made; two complementary quotients have 1 between their rounding errors.
* **C65** a sum of two doubles is a multiple of 2^-1074, so that it is a double itself or in the normal range; the nearest double is no further from it than the first summand, which bounds the partial sums; induction over the labels.
* **C66** the layout that a layout with iterators stands for is a relation (`SpecDeep.stands`, with the numbers of elements taken so far). A run of the model to a given depth of calls is shown to follow it (induction on the depth and the spans, with the state of `itertools.cycle` related to the elements taken), and every derivation of the relation gives a depth that is enough (mutual induction). C66_uses by the unrolling of C61, generalised to any kind of element.
* **C67** the layout with lists that a layout with iterators as marks amounts to is a relation (`SpecIterMarks.amounts`, with the iterators read so far); soundness by mutual induction, existence for every successful pass by induction on the layout, uniqueness.
* **C68** the marks are those of the whole calendar (`SpecSame.offset_mark`, `weekday_mark`, `easter_marks`), not those the marker inspects; a successful construction implies that every span given to a pattern knows how many units to skip (`decides_skip`), so the last mark is among the inspected ones; the marks between it and the unit all cut the span.
* **C69** `SpecShare.share` says that the workshifts a to b of one timeboard have the times and labels of a+c to b+c of another. Each query is rewritten by its exact characterisation (C01, C16-C19, C20, C22, C25-C31) into a statement about positions, and these are moved by c. Calendar periods and `count_periods` also need the periods to be covered by the workshifts in common (`covers`; otherwise the results differ, `C69_beyond_ex`), negative `n` of rollforward that the zero step stays among them. `C69_calendar` supplies the workshifts in common from C68.
* **C70** `SpecRelabel.relabelled f` replaces every label x by f x in layout, RememberingPatterns, amendments and default label; f need not be injective, and its values are labels (an iterable would be taken as a pattern, C62). Each function of Timeline.v and Board.v is shown to commute with it, by induction on layouts and lists; `alike` says that both sides fail in the same way or have related results. `C70_duties`: with worktime by duration, the timeboard of the duties alone has the same counts.
* **C71** follows from the exact value (C29) and the exact errors (C30) of a count: the sum may be taken over more periods than those touched, and quotients add up. Numbers here are exact; what floats do to them is C64. `C71_whole_refuted` shows why both parts must have workshifts to count: a part without any is 0 periods whatever it touches.
* **C72** compares two frames: in each, a span is cut where a group (or a mark) begins, and groups begin at instants that do not depend on the base unit; so the parts of the two spans begin at the same instants, level by level (`decides_same`), down to labels. Patterns are left out, since they count base units. Amendments follow by C14. `C72_marks_refuted` shows why marks must be where base units of both begin. Together with C69: every query about such timeboards has the same answer, except those in base units (`same_lengths`).
* **C76** `SpecAlike.alike` is the equivalence generated by the changes listed, closed under replacement of a part of any structure; by induction on it, `organize` does the same on every span. Repetitions of `at` need base units longer than a nanosecond (then the start of a span is before its end).
* **C77** Exchanging 'on' and 'off' exchanges the two index lists of the schedule, which is all that the methods use of it. For more workshifts with the duty: the counts of C17, C18, C25 and C31 compared by filtering.
* **C78** From C20-C24 and the order of the workshifts in time. A workshift is in a period if the unit of its reference time is among those of the period.
* **C79** `ItLeftover.leave_it` computes the state of the iterators of labels also when an exception is raised, and agrees with `organize_it`; `SpecItLeftover.asked_until` lists the uses before the exception. Amendments that are refused come after all uses.
* **C80** `SpecFiner.splits_into` lists the changes that divide further, `finer` compares workshifts by the times they hold. By induction on the changes, the units that the deciding part of the layout (`decides`, C09) makes one workshift are among those of the other layout. That more marks, or shorter periods, cut wherever fewer do is C05 and C06; with other things than labels in the structure a mark more may join base units (`C80_mixed_ex`).
* **C81** `DeepLeftover.leave_deep` computes the state of the iterators of organizers and patterns also when an exception is raised, and agrees with `organize_deep`. What is taken depends on what the iterators yield, as an element may be an organizer over an iterator or even over its own one; so `SpecDeepLeftover.runs` follows layout and iterators together, with the count taken from each iterator before and after. It is a relation by which the counts and the exception are determined. Attempts that end in RecursionError are left out; `C81_enough` says that with deep enough calls none does that has such counts.
* **C82** `SpecReport.made_of` says that an interval holds the workshifts of successive periods, `reported` what a query gives for each, zero where `get_interval` finds no workshifts. By C22 the lists of workshifts of the periods are disjoint and make up that of the interval; counts, durations and work times are sums over these lists (C25, C31).
* **C83** Of the same lists of workshifts (C82): the part of an interval in a period is its overlap with the interval of the period (C27), so that the quotients of C29 are the values of `what_portion_of` (C28). The sum over the touched periods is then a relation between methods of Interval.
* **C75** is exact for both kinds of pandas (`C75_checked`, `C75_wrapped`); the refutations are the ways in which the check of core.py:213 misses, see section 4.
* **C74** is proved by carrying the shift of ordinals of each frequency through the construction: the partition of a span into sub-spans is the same list of positions, hence the timeline differs in its frame only. `C74_easter_refuted`: 400 years do not do for Easter.
* **C73** joins the exact results of rolls (C17, C18) and of interval queries (C25): both are determined by the number of workshifts with the duty between two positions.

## 4. Findings (statements of the documentation that are false of the code)

Proved by a `_refuted` theorem (witness in the theorem):

1. `C05_refuted` `_Frame._locate_marks`/`get_loc_vectorized` (core.py): a mark inside the last base
   unit of the frame, one second or more after its start, is ignored.  If the units are shorter than a second, a
   mark after the end of the frame, less than a second after the start of the last unit, counts
   (`C05_outside_refuted`).
2. `C35_negative_refuted` `Workshift(tb, -1)` is accepted (Python indexing); its duration is negative.
3. `C30_refuted` `count_periods` does not catch `PartialOutOfBoundsError` of a period it touches only
   with workshifts that are not counted.
4. `C24_refuted` `get_interval(period=..., closed=...)`: when stripping leaves nothing of a clipped
   period, OutOfBoundsError is raised instead of VoidIntervalError.
5. `C34_refuted` all iterations of one `Interval` object share one generator, so nested loops are wrong.
6. `C12_refuted` a `RememberingPattern` used on a span that begins inside its calendar period takes
   labels which it does not deliver; the sequence of delivered labels has gaps.  The same after a constructor that raised an
   exception: what it took from the pattern is not put back (`C12_attempt`, `C12_attempt_ex`).
7. `C37_refuted` `from_start_of_each` with an offset of mixed signs (months=1, days=-31) places the
   mark of a period outside the period.
8. `C38_weeks_refuted`, `C42_months_refuted` `nth_weekday_of_month` / `from_easter` raise ValueError
   (length mismatch) for periods finer than a month / other than a year.
9. `C42_default_refuted` `from_easter` without an offset gives Easter Monday, the documentation says
   Easter Sunday.
10. `C41_far_refuted` the look-back for the mark that began before the span is limited to one period
    length; a mark further back is missed.
11. `C39_custom_refuted` US/UK with `long_weekends=False` keep the fixed holidays under string keys;
    a custom amendment for such a day makes a duplicate and the constructor raises KeyError.
12. `C40_us_refuted` US with `custom_end` 31 Dec 2010 (or 2004): that Friday is a working day, in the
    full calendar it is a day off.  Also US.py tests `2014 in years` where 2018 is meant, so 26 Dec
    2018 is a day off only if the calendar begins in 2014 or earlier (covered by `us_edge`).
13. `C44_refuted` `extend_weekends` may add a weekend day when the whole working week is amended.
14. `C48_period_refuted` `get_interval(pandas.Period, period=f)` ignores `period`, even if it is no
    frequency; by the documentation it would be the period `f` around that time, or refused.
15. `C52_iterable_refuted` `Timeboard(layout=RememberingPattern(...))` raises TypeError, although a
    RememberingPattern is iterable and the documentation allows any iterable.
16. `C55_overlap_refuted`, `C55_error_refuted`, `C55_bounds_refuted` `Interval.overlap` (hence `*`, `/`,
    `what_portion_of`) and `Interval(tb, (ws, ws))` take positions from objects of another timeboard
    without noticing: intervals of different days 'overlap', intervals of the same day raise
    OutOfBoundsError, the interval does not contain the workshifts it was made of.

Noticed while modelling, without a theorem (unless named):

17. `_Schedule` indexes are computed once; `_Timeline.amend` or `reset` called later do not refresh them,
    so that `on_duty_index` and `is_on_duty` disagree (`C60_schedules_refuted`).
18. `drop_schedule` does not protect the default schedule's name.
19. `workshift_ref` is not validated by the constructor.
20. A nested `Organizer(marks=[])` resets `skip_left` to 0.
21. `get_interval([a, b])` with a list: ValueError (ambiguous truth value of an array), although a
    list is list-like; `get_interval([None])` is the whole timeboard (`C48_refused`).
22. UK: `country` is not validated; any unknown string observes all fixed holidays of all countries
    (stated by `uk_dates`, part of `C39_uk`).
23. `clnd('no such date')` raises TypeError about the interval, the ValueError of the timestamp is lost
    (`C47_other`).
24. `_check_groupby_freq` does not know the spellings 'ms', 'us', 'ns', 'min' and 'Y': base units 'min' cannot be grouped,
    nothing can be grouped by 'Y' (`C13_accepted`), although both are valid frequencies; '1D' is
    refused where 'D' is accepted.
25. `Timeboard(start=..., end=...)` given `pandas.Period`s of another frequency than the base units take the
    base unit at their end, also for `start` (`SpecSetup.bound_means`, `C52_accepted`).
26. A `Timeboard` without `base_unit_freq=` (None) raises KeyError about `'freq'` (`C52_refused`).
27. `repr` of a timeboard leaves out `amendments`, `workshift_ref`, `default_name`, `default_selector` and
    `worktime_source`; that of a RememberingPattern leaves out how much of it has been used, that of a Marker
    shows a user's `how` function as a string, which Marker refuses (`C56_function`).  C56 is about the structure
    of the layout and about markers.
28. A class derived from CalendarBase whose `parameters` give `start` and `end` as strings, which
    `Timeboard` takes, works only without custom bounds: `_check_time` compares the string with a
    Timestamp and raises TypeError (`C57_text`, `C57_one_text`, `C57_text_refuted`).
29. CalendarBase ends at 31 Dec 2030 00:00, not at the end of that day: `custom_end='31 Dec 2030 12:00'`
    is refused with OutOfBoundsError although the timeboard without custom bounds contains this time
    (`C57_base`, last case of `C57_base_ex`).
30. `_Timeline.amend` takes any `not_in_range` but 'raise' for 'ignore'; by its documentation anything but
    'ignore' is an error for keys outside (`C60_refuted`).
31. A pattern may be an iterator, and patterns are "re-enacted in cycles" (core.py:1251-1267); but a finite
    iterator is used up by the first spans and later spans keep the default label without any message
    (`C61_used_up`, `C61_refuted`).
32. With `worktime_source='labels'` a workshift whose label is None raises TypeError, but an interval counts
    it as 0; with NaN the workshift's work time is NaN, the interval leaves it out (`C62_none_refuted`,
    `C62_nan_refuted`).  A label to which 0 can be added, such as a Period, is returned as work time although
    it is no number (`C62_period_refuted`).
33. Only the end of a period is compared with the marks of `from_start_of_each`, so an absolute keyword can put
    the mark before the period: day=15 for weeks marks the week of 30 January 2017 on 15 January
    (`C63_refuted`; the same cause as for months=1, days=-31 in `C37_refuted`).
34. `_check_groupby_freq` matches only the beginning of the frequency string, so of '2H30T' it sees '2H': hours are
    grouped by periods of 150 minutes, which split base units, and patterns are not aligned with them
    (`C13_refuted`, `C07_refuted`).
35. `SMALLEST_TIMEDELTA` (one second) is larger than a base unit of a millisecond: the next mark is taken to be
    a second nearer, and the recorded distance is 0 instead of 999 milliseconds (`C41_refuted`).  Exactly what is recorded: `C41_found`, `C51_skips`.
36. In a span of one nanosecond that is marked more than once at its start no mark is found: the marks are compared
    with an empty range of times, and the distance recorded is -1 (`C41_nano_refuted`).
37. Portions of pieces do not add up to the portion of their union: 1/7 + 4/7 is not the float 5/7
    (`C64_pieces_refuted`); nor is a count over several periods the float nearest to the exact count (2/7 + 3/7,
    `C64_sum_refuted`).  Comparing such results with `==` is a mistake; two pieces of a whole do add up to 1.0 (`C64_halves`).
38. Work time from float labels is not additive: with labels 0.1, 0.2, 0.3 the interval has 0.6000000000000001, its first
    day and the two others 0.1 + 0.5 = 0.6 (`C65_pieces_refuted`).  Halves and quarters of hours are safe (`C65_exact`).
39. An iterator that yields organizers over itself without end makes `__organize` call itself until Python raises RecursionError;
    nothing refuses such a layout (`C66_itself`).
40. `marks` is documented as any iterable, but an iterator is read by the first use of the organizer: within an organizer for
    weeks it divides the first week only, and a second timeboard with the same Organizer is not divided (`C67_list_refuted`,
    `C67_again`).
41. The marker looks back by the length of the period of 1 July 2016. For years that begin in March to July that is 365 days,
    one less than some of them have: with a mark late in the last day of such a year, a timeboard that begins on that day before
    the mark cannot be made (OutOfBoundsError), one that begins earlier or later can (`C68_reach_refuted`; `C68_longest`,
    `C68_reach`: no other frequency has the problem). Structures of several elements, and groups of several periods, are counted
    from the start of the timeboard, so timeboards of the same layout disagree (`C68_cycle_refuted`, `C68_multiple_refuted`).
42. The check of the supported range (core.py:213) compares the start times of the first and the last base unit. With a pandas
    that wraps around, it does not see a frame of one base unit that begins before the range, such as the month of 22 Sep 1677,
    whose start time is then in 2262 (`C75_start_refuted`), nor years from 1200 given by strings (`C75_far_refuted`). With any
    pandas the end is not checked: in a frame of months that ends with April 2262 no point in time is found (`C75_end_refuted`:
    KeyError, or OutOfBoundsDatetime).
43. An organizer without marks around a pattern is not neutral under a marker: the pattern then starts from its first label, where
    without it the labels of the units before the timeboard are skipped (`C76_around_refuted`). With base units of a nanosecond, a
    timeboard of a single unit at which two equal marks fall cannot be made (OutOfBoundsError: the slice of core.py:443-448 is
    empty), while it can with one of them (`C76_twice_refuted`).
