-Q theories Verif

theories/Py.v
theories/Num.v
theories/Cal.v
theories/CalProofs.v
theories/Tables.v
theories/TzCheck.v
theories/Sigs.v
theories/Call.v
theories/Clock.v
theories/Constants.v
theories/SolarTime.v
theories/Solar.v
theories/Radiation.v
theories/Elevation.v
theories/Util.v
theories/Simulate.v
theories/Rest.v
theories/Numeric.v
theories/Script.v
theories/RInst.v
theories/Rel.v
theories/RelInst.v
theories/SpecDt.v
theories/GenProofs.v
theories/SpecTime.v
theories/SolarTimeProofs.v
theories/RTac.v
theories/JulianProofs.v
theories/TzCheckProofs.v
theories/NumericProofs.v
theories/SimulateProofs.v
theories/PropTime.v
theories/SpecGeom.v
theories/SpecAstro.v
theories/Trig.v
theories/GeoProofs.v
theories/RefractionProofs.v
theories/SphereProofs.v
theories/SeriesProofs.v
theories/PositionProofs.v
theories/TopoProofs.v
theories/SpaProofs.v
theories/GeomCases.v
theories/PropGeom.v
theories/SpecEng.v
theories/FastProofs.v
theories/RadiationProofs.v
theories/SunriseProofs.v
theories/IrradianceProofs.v
theories/SpanProofs.v
theories/RestProofs.v
theories/SpecRest.v
theories/RestMore.v
theories/Arr.v
theories/ArrayProofs.v
theories/BackendProofs.v
theories/Samples.v
theories/MiscProofs.v
theories/SpecScript.v
theories/ScriptProofs.v
theories/SpecCall.v
theories/CallProofs.v
theories/B64.v
theories/SpecB64.v
theories/B64Lemmas.v
theories/B64Angles.v
theories/B64Near.v
theories/B64Julian.v
theories/B64Witness.v
theories/B64Ranges.v
theories/Absint.v
theories/AbsintFast.v
theories/AbsintSound.v
theories/B64Lift.v
theories/B64Topo.v
theories/B64Pos.v
theories/AngleLip.v
theories/B64Horiz.v
theories/B64Refr.v
theories/B64Sky.v
theories/B64Final.v
theories/AttainProofs.v
theories/UtilProofs.v
theories/PropEng.v
theories/PropUtil.v
theories/PropFloat.v
theories/PropFloat2.v
theories/ApproxNum.v
theories/ApproxProofs.v
theories/PropApprox.v
theories/SunNum.v
theories/SunProofs.v
theories/PropSun.v
theories/MoveProofs.v
theories/MotionProofs.v
theories/PropMotion.v
theories/B64Fast.v
theories/B64FastAz.v
theories/B64Rad.v
theories/PropFloat3.v
theories/SpecRise.v
theories/B64Sunrise.v
theories/PropFloat4.v
theories/B64Np.v
theories/SpecNp.v
theories/NpProofs64.v
theories/NpCases64.v
theories/PropFloat5.v
theories/SeasonProofs.v
theories/NoonProofs.v
theories/PropSeason.v
theories/B64End.v
theories/B64Incid.v
theories/B64Elev.v
theories/PropFloat6.v
theories/SpecSpan.v
theories/BetweenProofs.v
theories/ScriptText.v
theories/SpecPyText.v
theories/ScriptTextProofs.v
theories/ScriptTextMore.v
theories/TableText.v
theories/TableTextProofs.v
theories/PropText.v
theories/MotionLip.v
theories/Demo.v
theories/SpecDemo.v
theories/CrossProofs.v
theories/DemoProofs.v
theories/DemoText.v
theories/B64Crash.v
theories/PropDemo.v
theories/Usno.v
theories/UsnoLog.v
theories/SpecUsno.v
theories/UsnoProofs.v
theories/UsnoLogProofs.v
theories/PropUsno.v
theories/B64Span.v
theories/PropFloat7.v
theories/Encl.v
theories/EnclSin.v
theories/EnclSound.v
theories/Tests.v
theories/SpecTests.v
theories/TestsProofs.v
theories/PropTests.v
theories/RefrOrder.v
theories/ClimbProofs.v
theories/PropClimb.v
theories/DayProofs.v
theories/PeakProofs.v
theories/PropDay.v
theories/RiseB64.v
theories/PropRise64.v
theories/SpecErr.v
theories/ErrProofs.v
theories/ArrRad64.v
theories/PropErr.v
theories/SpecNear.v
theories/B64Util.v
theories/B64Clear.v
theories/B64UtilCase.v
theories/PropUtil64.v
theories/SpecClose.v
theories/B64Rest.v
theories/B64RestPow.v
theories/PropRest64.v
