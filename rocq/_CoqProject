-Q theories Verif
theories/Base.v
theories/PyDate.v
theories/DateFacts.v
theories/Recurrent.v
theories/SpecRecur.v
theories/RecurProofs.v
theories/RecurExact.v
theories/RecurMain.v
theories/RecurOrder.v
theories/RecurSound.v
theories/RecurMisc.v
theories/PropRecur.v
theories/Util.v
theories/IsoWeek.v
theories/CalTime.v
theories/Event.v
theories/Storage.v
theories/UtilProofs.v
theories/IsoProofs.v
theories/PropUtil.v
theories/TimeProofs.v
theories/PropTime.v
theories/QueryProofs.v
theories/BlockProofs.v
theories/PropQuery.v
theories/ICal.v
theories/System.v
theories/EventProofs.v
theories/SpecProofs.v
theories/PropEvent.v
theories/SystemProofs.v
theories/StoreProofs.v
theories/IdProofs.v
theories/ImportProofs.v
theories/PropSystem.v
theories/ICalProofs.v
theories/RuleText.v
theories/SpecText.v
theories/TextProofs.v
theories/ImportContent.v
theories/ImportTwice.v
theories/PropICal.v
theories/PropImport.v
theories/PropCalendar.v
theories/PropExact.v
theories/PropFail.v
theories/PropRepeat.v
theories/PropRaise.v
theories/PropTight.v
theories/PropEnd.v
theories/PropFree.v
theories/PropSpec.v
theories/PropMore.v
theories/Repr.v
theories/PropRepr.v
theories/PropChange.v
theories/PropRound.v
theories/PropEdit.v
theories/PropGiven.v
theories/PropNarrow.v
theories/PropCause.v
theories/PropAgain.v
theories/PropEdge.v
theories/World.v
theories/PropWorld.v
theories/Alias.v
theories/PropAlias.v
theories/PropAccept.v
theories/PropMeta.v
theories/PropSelect.v
theories/PropSettle.v
theories/PropRestore.v
theories/PropFault.v
theories/Limits.v
theories/PropLimit.v
theories/Categories.v
theories/PropCategories.v
theories/PropSlot.v
theories/PropSound.v
theories/Conform.v
theories/React.v
theories/PropReact.v
theories/Deliver.v
theories/DeliverProofs.v
theories/PropDeliver.v
theories/PropTold.v
theories/PropObject.v
theories/Overlaps.v
theories/PropOverlaps.v
theories/ShuffleProofs.v
theories/ShuffleSystem.v
theories/PropShuffle.v
theories/PropSilent.v
theories/PropIndependent.v
theories/RuleAttr.v
theories/PropAttr.v
theories/PropRoom.v
theories/PropShift.v
theories/PropSeries.v
theories/PropMeeting.v
theories/PropReschedule.v
theories/PropStanding.v
theories/PropWorklist.v
theories/PropSearch.v
theories/PropOvernight.v
theories/PropMirror.v
theories/PropZone.v
theories/PropErrors.v
theories/PropExport.v
theories/PropRefuse.v
theories/PropOpen.v
theories/Aware.v
theories/PropAware.v
theories/PropForm.v
theories/Defaults.v
theories/PropDefault.v
theories/Subscribe.v
theories/PropIface.v
theories/PropPersonal.v
theories/PropRename.v
theories/PropUndo.v
theories/PropMove.v
theories/PropUnseen.v
theories/PropWording.v
theories/PropGroup.v
theories/PropTaken.v
theories/PropKth.v
theories/PropUnroll.v
theories/PropHours.v
theories/Periods.v
theories/PropPeriod.v
theories/Threads.v
theories/PropThreads.v
theories/PropSerial.v
theories/Invites.v
theories/PropInvites.v
theories/Reads.v
theories/PropReads.v
theories/BusyRun.v
theories/BlockForm.v
theories/PropBusyRun.v
theories/ImportRun.v
theories/PropImportRun.v
theories/FineImport.v
theories/PropFineImport.v
theories/ExportRun.v
theories/PropExportRun.v
theories/Editors.v
theories/PropEditors.v
