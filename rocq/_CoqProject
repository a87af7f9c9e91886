-Q theories Verif
theories/PyBase.v
theories/Arith.v
theories/ArithQ.v
theories/ArithR.v
theories/ArithB64.v
theories/Gcoder.v
theories/Index.v
theories/Samples.v
theories/SpecLoad.v
theories/P_Load.v
theories/P_Edit.v
theories/P_Append.v
theories/Props_Load.v
theories/SpecText.v
theories/P_Text.v
theories/P_Report.v
theories/P_Wf.v
theories/P_TextRefuted.v
theories/Props_Text.v
theories/SpecMachine.v
theories/P_Machine.v
theories/P_MachineRefuted.v
theories/Props_Machine.v
theories/SpecMeasure.v
theories/SpecEqual.v
theories/P_Measure.v
theories/P_Layers.v
theories/P_Format.v
theories/P_Equal.v
theories/Props_Measure.v
theories/Filters.v
theories/SpecFilter.v
theories/P_Filter.v
theories/P_FilterMotion.v
theories/P_FilterRefuted.v
theories/Props_Filter.v
theories/Visit.v
theories/SpecVisit.v
theories/P_Visit.v
theories/P_VisitRefuted.v
theories/Props_Visit.v
theories/Tempcal.v
theories/SpecTempcal.v
theories/P_Tempcal.v
theories/P_TempcalRefuted.v
theories/Props_Tempcal.v
theories/Arc.v
theories/SpecArc.v
theories/P_Arc.v
theories/P_ArcFit.v
theories/P_ArcPath.v
theories/P_ArcFeed.v
theories/P_ArcTurn.v
theories/P_ArcErr.v
theories/P_ArcSample.v
theories/P_ArcRefuted.v
theories/Props_Arc.v
theories/Stretch.v
theories/SpecStretch.v
theories/SpecLoop.v
theories/SpecBend.v
theories/SpecLoops.v
theories/P_Stretch.v
theories/P_StretchRead.v
theories/P_StretchGeo.v
theories/P_StretchIter.v
theories/P_StretchEnd.v
theories/P_StretchWall.v
theories/P_StretchErr.v
theories/P_StretchLoop.v
theories/P_StretchTotal.v
theories/P_StretchSafe.v
theories/P_StretchProps.v
theories/P_StretchBend.v
theories/P_StretchRound.v
theories/P_StretchWhole.v
theories/P_StretchAny.v
theories/P_StretchSkein.v
theories/P_BendSample.v
theories/P_LoopSample.v
theories/SpecHeights.v
theories/P_Heights.v
theories/P_HeightsUse.v
theories/Props_Heights.v
theories/P_Compose.v
theories/SpecCompose.v
theories/P_ComposeWords.v
theories/P_ComposeSample.v
theories/Props_Compose.v
theories/SpecLayersKept.v
theories/P_LayersKept.v
theories/SpecBox.v
theories/P_BoxShift.v
theories/P_BoxRelative.v
theories/P_LayersKeptNum.v
theories/P_BoxSample.v
theories/P_Reload.v
theories/P_KeptSample.v
theories/Props_Kept.v
theories/SpecIdle.v
theories/P_Idle.v
theories/P_IdleNum.v
theories/P_IdleWrite.v
theories/Props_Idle.v
theories/P_Commute.v
theories/P_CommuteRefuted.v
theories/Props_Commute.v
theories/SpecArcSpeed.v
theories/P_ArcSpeed.v
theories/P_ArcSpeedRefuted.v
theories/Props_ArcSpeed.v
theories/P_ArcReload.v
theories/SpecArcKept.v
theories/P_ArcKept.v
theories/P_ArcAny.v
theories/P_ArcLayers.v
theories/Props_ArcKept.v
theories/P_ArcAgain.v
theories/SpecArcBox.v
theories/P_ArcBox.v
theories/P_ArcBoxSample.v
theories/Props_ArcBox.v
theories/Props_ArcLayers.v
theories/Props_ArcAgain.v
theories/Props_Box.v
theories/SpecFloatStretch.v
theories/P_FloatHypot.v
theories/P_FloatStretch.v
theories/P_FloatStretchWhole.v
theories/P_FloatStretchSample.v
theories/Props_FloatStretch.v
theories/P_AnySample.v
theories/P_SkeinSample.v
theories/P_StretchRefuted.v
theories/P_StretchSample.v
theories/P_StretchWidth.v
theories/Props_Stretch.v
theories/Props_Bend.v
theories/Props_Loop.v
theories/Props_LoopAny.v
theories/Props_Skein.v
theories/Vector.v
theories/SpecVector.v
theories/P_Vector.v
theories/Props_Vector.v
theories/VectorObj.v
theories/SpecVectorObj.v
theories/P_VectorObj.v
theories/Props_VectorObj.v
theories/Validate.v
theories/Files.v
theories/SpecFiles.v
theories/P_Files.v
theories/P_FilesText.v
theories/P_FilesSample.v
theories/Props_Files.v
theories/SpecBinary64.v
theories/P_Float.v
theories/P_FloatText.v
theories/P_FloatMotion.v
theories/P_FloatTempcal.v
theories/P_FloatTrack.v
theories/P_FloatFeed.v
theories/P_FloatBox.v
theories/P_FloatSample.v
theories/Events.v
theories/SpecEvents.v
theories/P_Events.v
theories/Summary.v
theories/SpecSummary.v
theories/P_Summary.v
theories/SpecFree.v
theories/SpecMod.v
theories/P_Free.v
theories/P_ArcInch.v
theories/P_Rewrite.v
theories/Props_Float.v
theories/Props_Events.v
theories/Props_More.v
theories/P_ModRun.v
theories/P_Mod.v
theories/Props_Mod.v
theories/SpecFloatTempcal.v
theories/P_FloatGradient.v
theories/P_FloatWrite.v
theories/SpecFloatTime.v
theories/P_FloatWf.v
theories/P_FloatTime.v
theories/P_FloatTimeSample.v
theories/Props_FloatTime.v
theories/Props_FloatTempcal.v
theories/P_FloatMod.v
theories/Props_FloatMod.v
theories/P_Index.v
theories/Props_Index.v
theories/SpecEdits.v
theories/P_Edits.v
theories/Props_Edits.v
theories/Append.v
theories/SpecAppend.v
theories/P_AppendWith.v
theories/Props_Append.v
theories/SpecTool.v
theories/P_Tool.v
theories/Props_Tool.v
theories/P_ArcReloadRefuted.v
theories/SpecArcTime.v
theories/P_ArcTime.v
theories/P_ArcTimeSample.v
theories/Props_ArcTime.v
theories/SpecDwell.v
theories/P_Dwell.v
theories/P_DwellSample.v
theories/Props_Dwell.v
theories/SpecHome.v
theories/P_Home.v
theories/P_HomeSample.v
theories/Props_Home.v
theories/SpecOrders.v
theories/P_Orders.v
theories/P_OrdersNear.v
theories/P_OrdersSample.v
theories/Props_Orders.v
theories/P_OrdersNearSample.v
theories/Props_OrdersNear.v
