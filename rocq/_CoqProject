-Q theories Verif
theories/Base.v
theories/BaseFacts.v
theories/Rng.v
theories/RngFacts.v
theories/Utils.v
theories/UtilsFacts.v
theories/UtilsProps.v
theories/Relationship.v
theories/RelationshipFacts.v
theories/RelationshipSelect.v
theories/RelationshipMany.v
theories/RelationshipOverride.v
theories/RelationshipGiven.v
theories/SpecRelationship.v
theories/Samples.v
theories/RelationshipProps.v
theories/PropRelationship.v
theories/PropUtils.v
theories/Frame.v
theories/Gens.v
theories/GensProps.v
theories/PropGens.v
theories/Clock.v
theories/SpecClock.v
theories/ClockFacts.v
theories/ClockProps.v
theories/PropClock.v
theories/Attribute.v
theories/World.v
theories/Story.v
theories/Ops.v
theories/Fs.v
theories/Circus.v
theories/SpecAttribute.v
theories/AttributeFacts.v
theories/OpsFacts.v
theories/SpecStory.v
theories/StoryFacts.v
theories/StoryExec.v
theories/StoryProps.v
theories/SpecOps.v
theories/OpsProps.v
theories/OpsColumns.v
theories/StoryMore.v
theories/StoryStates.v
theories/StoryBack.v
theories/StoryDelay.v
theories/StoryNew.v
theories/SpecWorld.v
theories/WorldProps.v
theories/StoryWorld.v
theories/StoryWorld2.v
theories/StorySamples.v
theories/PropStory.v
theories/OpsMore.v
theories/PropOps.v
theories/PopFacts.v
theories/SpecPopulation.v
theories/PopProps.v
theories/GensKept.v
theories/PopMore.v
theories/PropPopulation.v
theories/SpecFs.v
theories/FsFacts.v
theories/SpecCircus.v
theories/CircusFacts.v
theories/NamesKept.v
theories/CircusProps.v
theories/PropCircus.v
theories/Helpers.v
theories/SpecHelpers.v
theories/HelpersFacts.v
theories/PropHelpers.v
theories/Components.v
theories/SpecComponents.v
theories/ComponentsFacts.v
theories/PropComponents.v
theories/Persist.v
theories/SpecPersist.v
theories/PersistFacts.v
theories/PersistRel.v
theories/PersistFs.v
theories/PersistTree.v
theories/PersistSave.v
theories/PersistLoad.v
theories/PersistCircus.v
theories/PersistMore.v
theories/PersistSamples.v
theories/PropPersist.v
theories/SpecRandom.v
theories/RandomFacts.v
theories/RandomRel.v
theories/RandomGens.v
theories/RandomTimers.v
theories/RandomBack.v
theories/PropRandom.v
theories/SpecLocal.v
theories/LocalFacts.v
theories/LocalOps.v
theories/LocalCalls.v
theories/PropLocal.v
theories/SpecAct.v
theories/ActFacts.v
theories/PropAct.v
theories/SpecFresh.v
theories/FreshFacts.v
theories/FreshReset.v
theories/PropFresh.v
theories/Geography.v
theories/SpecGeography.v
theories/GeographyRun.v
theories/GeographyBuild.v
theories/SpecWait.v
theories/StoryGap.v
theories/PropWait.v
theories/GeographyLog.v
theories/GeographyProps.v
theories/GeographyRepair.v
theories/GeographyTotal.v
theories/PropGeography.v
theories/Resample.v
theories/SpecResample.v
theories/ResampleFacts.v
theories/ResampleProps.v
theories/ResampleBuild.v
theories/ResampleRefine.v
theories/PropResample.v
theories/SpecSupply.v
theories/SupplyFacts.v
theories/SupplyProps.v
theories/PropSupply.v
theories/Reload.v
theories/SpecReload.v
theories/ReloadProps.v
theories/PropReload.v
theories/Namespace.v
theories/NamespaceFacts.v
theories/NamespaceProps.v
theories/PropNamespace.v
theories/Logger.v
theories/SpecLogger.v
theories/LoggerProps.v
theories/PropLogger.v
theories/SpecLedger.v
theories/LedgerProps.v
theories/PropLedger.v
theories/Describe.v
theories/DescribeProps.v
theories/PropDescribe.v
theories/SpecRecords.v
theories/RecordsGens.v
theories/RecordsProps.v
theories/RecordsMore.v
theories/PropRecords.v
theories/SpecSafe.v
theories/SafeGens.v
theories/SafeFacts.v
theories/SafeOps.v
theories/SafeRun.v
theories/PropSafe.v
theories/SpecChains.v
theories/ChainsProps.v
theories/PropChains.v
theories/SpecNow.v
theories/NowProps.v
theories/SpecJournal.v
theories/JournalProps.v
theories/PropNow.v
theories/Cdr.v
theories/SpecCdr.v
theories/CdrFacts.v
theories/CdrProps.v
theories/PropCdr.v
theories/RowsProps.v
theories/SpecCdrLogs.v
theories/CdrLogs.v
theories/CdrBooks.v
theories/PropCdrLogs.v
theories/OpRows.v
theories/Snd.v
theories/SpecSnd.v
theories/SndBooks.v
theories/SndTruth.v
theories/PropSnd.v
theories/SelfForce.v
theories/SpecHolidays.v
theories/SndHolidays.v
theories/PropHolidays.v
theories/SpecSetup.v
theories/SetupProps.v
theories/PropSetup.v
theories/SpecSndReady.v
theories/SndSafe.v
theories/PropSndSafe.v
theories/SpecCalendar.v
theories/CalendarProps.v
theories/PropCalendar.v
theories/StoryForce.v
theories/SpecSndRestock.v
theories/SndRestock.v
theories/PropSndRestock.v
theories/RelationshipEach.v
theories/OpEach.v
theories/SpecSndStock.v
theories/SndStock.v
theories/PropSndStock.v
theories/SpecCdrMoves.v
theories/CdrMoves.v
theories/PropCdrMoves.v
theories/SavedFacts.v
theories/SpecArchive.v
theories/ArchiveProps.v
theories/SpecNumbers.v
theories/NumbersProps.v
theories/SpecSndReviews.v
theories/SndReviews.v
theories/PropSndReviews.v
theories/SpecPrompt.v
theories/PromptProps.v
theories/CdrPrompt.v
theories/PropPrompt.v
theories/SndPrompt.v
theories/CdrSetup.v
theories/CdrChoice.v
theories/CdrSubs.v
theories/SpecCdrSetup.v
theories/CdrSubsProps.v
theories/PropCdrSetup.v
theories/CdrStories.v
theories/CdrBuild.v
theories/CdrReady.v
theories/PropCdrBuild.v
theories/SpecCdrFiles.v
theories/PropCdrFiles.v
theories/SndSetup.v
theories/SndBuild.v
theories/SpecSndSetup.v
theories/SndReady.v
theories/PropSndBuild.v
theories/PropSndFiles.v
theories/PropSndHolidays.v
