-Q theories Verif
theories/Base.v
theories/BaseProofs.v
theories/Civil.v
theories/CivilProofs.v
theories/Freq.v
theories/FreqProofs.v
theories/Frame.v
theories/FrameProofs.v
theories/When.v
theories/Timeline.v
theories/Board.v
theories/TimelineProofs.v
theories/Spec.v
theories/BoardProofs.v
theories/SpecLookup.v
theories/LookupProofs.v
theories/Samples.v
theories/PropLookup.v
theories/SpecRoll.v
theories/RollProofs.v
theories/PropRoll.v
theories/SpecQuery.v
theories/QueryProofs.v
theories/PropQuery.v
theories/SpecMisc.v
theories/MiscProofs.v
theories/PropMisc.v
theories/PropSettings.v
theories/SpecInterval.v
theories/IntervalProofs.v
theories/PropInterval.v
theories/CountProofs.v
theories/PropCount.v
theories/SpecLayout.v
theories/PartProofs.v
theories/TreeProofs.v
theories/LayoutProofs.v
theories/SpecRemember.v
theories/RememberProofs.v
theories/Leftover.v
theories/SpecLeftover.v
theories/LeftoverProofs.v
theories/AcceptProofs.v
theories/FitProofs.v
theories/PropLayout.v
theories/SpecWhen.v
theories/WhenProofs.v
theories/NthProofs.v
theories/EasterProofs.v
theories/MarkProofs.v
theories/PropWhen.v
theories/Calendars.v
theories/SpecCal.v
theories/SettingsProofs.v
theories/CalProofs.v
theories/SeekProofs.v
theories/ExtendProofs.v
theories/HolidayProofs.v
theories/YearProofs.v
theories/LongProofs.v
theories/UsProofs.v
theories/UkProofs.v
theories/RangeProofs.v
theories/PropCal.v
theories/SpecCivil.v
theories/GregorianProofs.v
theories/PeriodProofs.v
theories/PropCivil.v
theories/Api.v
theories/SpecApi.v
theories/ApiProofs.v
theories/PropApi.v
theories/Setup.v
theories/SpecSetup.v
theories/SetupProofs.v
theories/PropSetup.v
theories/SpecBuild.v
theories/BuildProofs.v
theories/AttrProofs.v
theories/PropBuild.v
theories/Print.v
theories/SpecPrint.v
theories/PrintProofs.v
theories/PropPrint.v
theories/UserCal.v
theories/SpecUserCal.v
theories/UserCalProofs.v
theories/PropUserCal.v
theories/Text.v
theories/SpecText.v
theories/TextProofs.v
theories/Revise.v
theories/SpecRevise.v
theories/ReviseProofs.v
theories/PropText.v
theories/PropRevise.v
theories/Iterate.v
theories/SpecIterate.v
theories/IterateProofs.v
theories/PropIterate.v
theories/Labels.v
theories/SpecLabels.v
theories/LabelsProofs.v
theories/PropLabels.v
theories/ConfBase.v
theories/ConfFrames.v
theories/ConfPartitioning.v
theories/ConfOrganizers.v
theories/ConfPatterns.v
theories/ConfTimeboard.v
theories/ConfIntervals.v
theories/ConfIntervalMethods.v
theories/ConfIntervalsCompound.v
theories/ConfWorkshift.v
theories/ConfWorkshiftCompound.v
theories/ConfCalendarsGeneric.v
theories/ConfDocBase.v
theories/ConfDocsMaking.v
theories/ConfDocsDoing.v
theories/ConfDocsCode.v
theories/PrintMarker.v
theories/PrintMarkerProofs.v
theories/Rounding.v
theories/SpecRounding.v
theories/RoundingProofs.v
theories/PropRounding.v
theories/RoundingLabels.v
theories/SpecRoundingLabels.v
theories/RoundingLabelsProofs.v
theories/PropRoundingLabels.v
theories/Deep.v
theories/SpecDeep.v
theories/DeepProofs.v
theories/PropDeep.v
theories/IterMarks.v
theories/SpecIterMarks.v
theories/IterMarksProofs.v
theories/PropIterMarks.v
theories/SpecSame.v
theories/SameProofs.v
theories/PropSame.v
theories/SpecShare.v
theories/ShareProofs.v
theories/PropShare.v
theories/SpecRelabel.v
theories/RelabelProofs.v
theories/PropRelabel.v
theories/AddProofs.v
theories/PropAdd.v
theories/SpecUnit.v
theories/UnitProofs.v
theories/PropUnit.v
theories/StepProofs.v
theories/PropStep.v
theories/SpecMove.v
theories/MoveProofs.v
theories/PropMove.v
theories/Range.v
theories/SpecRange.v
theories/StampProofs.v
theories/PropRange.v
theories/SpecAlike.v
theories/AlikeProofs.v
theories/PropAlike.v
theories/SpecOpposite.v
theories/OppositeProofs.v
theories/PropOpposite.v
theories/SpecSides.v
theories/SidesProofs.v
theories/PropSides.v
theories/ItLeftover.v
theories/SpecItLeftover.v
theories/ItLeftoverProofs.v
theories/PropItLeftover.v
theories/SpecFiner.v
theories/FinerProofs.v
theories/PropFiner.v
theories/DeepLeftover.v
theories/SpecDeepLeftover.v
theories/DeepLeftoverProofs.v
theories/PropDeepLeftover.v
theories/SpecReport.v
theories/ReportProofs.v
theories/PropReport.v
theories/PortionProofs.v
theories/PropPortion.v
