-Q theories Verif
theories/Arith.v
theories/ArithF.v
theories/ArithR.v
theories/L_Almanac.v
theories/L_AlmanacDat.v
theories/L_AlmanacSky.v
theories/L_AlmanacSun.v
theories/L_Angle.v
theories/L_Apx.v
theories/L_ApxAngle.v
theories/L_ApxC2i.v
theories/L_ApxCio.v
theories/L_ApxDat.v
theories/L_ApxEl.v
theories/L_ApxEpv.v
theories/L_ApxFrames.v
theories/L_ApxGd.v
theories/L_ApxGeo.v
theories/L_ApxMod.v
theories/L_ApxNut.v
theories/L_ApxSun.v
theories/L_ApxSym.v
theories/L_ApxVec.v
theories/L_Args.v
theories/L_ArithF.v
theories/L_ArithR.v
theories/L_CalcLibm.v
theories/L_Calendar.v
theories/L_CioLow.v
theories/L_Civil.v
theories/L_Climb.v
theories/L_Closed.v
theories/L_DeltaAt.v
theories/L_Display.v
theories/L_Ellipsoid.v
theories/L_Epv.v
theories/L_Eval.v
theories/L_Flit.v
theories/L_Frames.v
theories/L_Fro.v
theories/L_FromJulianF.v
theories/L_FromJulianR.v
theories/L_GdAny.v
theories/L_Geodesy.v
theories/L_GeodesyEl.v
theories/L_Gravity.v
theories/L_GravityK.v
theories/L_HMS.v
theories/L_Halley.v
theories/L_Halley2.v
theories/L_JulianMono.v
theories/L_Kepler.v
theories/L_Libm.v
theories/L_Lip.v
theories/L_Matrix.v
theories/L_Near.v
theories/L_Orbit.v
theories/L_OrbitV.v
theories/L_PAccC2t.v
theories/L_PAccDat.v
theories/L_PAccEarth.v
theories/L_PAccFrames.v
theories/L_PAccGd.v
theories/L_PAccGeo.v
theories/L_PAccSun.v
theories/L_PAccuracy.v
theories/L_PAlmanac.v
theories/L_PAngles.v
theories/L_PArgs.v
theories/L_PBinary.v
theories/L_PCalendar.v
theories/L_PClimb.v
theories/L_PDaylight.v
theories/L_PDeltaAt.v
theories/L_PDisplay.v
theories/L_PEllipsoid.v
theories/L_PFrames.v
theories/L_PFund.v
theories/L_PGdAny.v
theories/L_PGeo360.v
theories/L_PGeoAny.v
theories/L_PGeoTrip.v
theories/L_PGeoTripAny.v
theories/L_PGravity.v
theories/L_PJulianMain.v
theories/L_PJulianTrip.v
theories/L_PLow.v
theories/L_PMatF.v
theories/L_PMatrix.v
theories/L_PNoon.v
theories/L_POrbit.v
theories/L_POrder.v
theories/L_POrigin.v
theories/L_PPlace.v
theories/L_PPlaceB.v
theories/L_PPole.v
theories/L_PProfile.v
theories/L_PPublished.v
theories/L_PRefFrames.v
theories/L_PReference.v
theories/L_PSeasons.v
theories/L_PSeries.v
theories/L_PShortest.v
theories/L_PSmooth.v
theories/L_PSpecial.v
theories/L_PSplit.v
theories/L_PStep.v
theories/L_PSunAngle.v
theories/L_PSunrise.v
theories/L_PTestBp.v
theories/L_PTestCio.v
theories/L_PTestEll.v
theories/L_PTestRot.v
theories/L_PTestTables.v
theories/L_PTests.v
theories/L_PTimeOfDay.v
theories/L_PTimeScales.v
theories/L_PTools.v
theories/L_PTotal.v
theories/L_PTropics.v
theories/L_PVec.v
theories/L_Pi.v
theories/L_Poisson.v
theories/L_PolyB.v
theories/L_RefFrames.v
theories/L_Reference.v
theories/L_Rel.v
theories/L_Scan.v
theories/L_Series.v
theories/L_SeriesR.v
theories/L_Shortest.v
theories/L_Shows.v
theories/L_Spin.v
theories/L_SpinP.v
theories/L_SpinR.v
theories/L_Sunrise.v
theories/L_Sym.v
theories/L_Taylor.v
theories/L_Tight.v
theories/L_TightLon.v
theories/L_Wrap.v
theories/M_Args.v
theories/M_Calendar.v
theories/M_Common.v
theories/M_DeltaAt.v
theories/M_Display.v
theories/M_Earth.v
theories/M_Ellipsoid.v
theories/M_Frames.v
theories/M_Fundargs.v
theories/M_Locator.v
theories/M_Shortest.v
theories/M_SunAngle.v
theories/M_TestBp.v
theories/M_TestCio.v
theories/M_TestRot.v
theories/M_TestTables.v
theories/M_Tests.v
theories/M_Time.v
theories/M_Tools.v
theories/Outcome.v
theories/P_AccC2t.v
theories/P_AccDat.v
theories/P_AccEarth.v
theories/P_AccFrames.v
theories/P_AccGd.v
theories/P_AccGeo.v
theories/P_AccSun.v
theories/P_Accuracy.v
theories/P_Almanac.v
theories/P_Angles.v
theories/P_Args.v
theories/P_Binary.v
theories/P_Calendar.v
theories/P_Climb.v
theories/P_Daylight.v
theories/P_DeltaAt.v
theories/P_Display.v
theories/P_Ellipsoid.v
theories/P_Frames.v
theories/P_Fund.v
theories/P_GdAny.v
theories/P_Geo360.v
theories/P_GeoAny.v
theories/P_GeoTrip.v
theories/P_GeoTripAny.v
theories/P_Gravity.v
theories/P_JulianMain.v
theories/P_JulianTrip.v
theories/P_Low.v
theories/P_MatF.v
theories/P_Matrix.v
theories/P_Noon.v
theories/P_Orbit.v
theories/P_Order.v
theories/P_Origin.v
theories/P_Place.v
theories/P_PlaceB.v
theories/P_Pole.v
theories/P_Profile.v
theories/P_Published.v
theories/P_RefFrames.v
theories/P_Reference.v
theories/P_Seasons.v
theories/P_Series.v
theories/P_Shortest.v
theories/P_Smooth.v
theories/P_Special.v
theories/P_Split.v
theories/P_Step.v
theories/P_SunAngle.v
theories/P_Sunrise.v
theories/P_TestBp.v
theories/P_TestCio.v
theories/P_TestEll.v
theories/P_TestRot.v
theories/P_TestTables.v
theories/P_Tests.v
theories/P_TimeOfDay.v
theories/P_TimeScales.v
theories/P_Tools.v
theories/P_Total.v
theories/P_Tropics.v
theories/P_Vec.v
theories/Spec_Accuracy.v
theories/Spec_Almanac.v
theories/Spec_Api.v
theories/Spec_Args.v
theories/Spec_C2t.v
theories/Spec_Calendar.v
theories/Spec_Display.v
theories/Spec_Ell.v
theories/Spec_Float.v
theories/Spec_Frames.v
theories/Spec_Geo.v
theories/Spec_Gravity.v
theories/Spec_Matrix.v
theories/Spec_Orbit.v
theories/Spec_Origin.v
theories/Spec_Pole.v
theories/Spec_Profile.v
theories/Spec_Published.v
theories/Spec_RefFrames.v
theories/Spec_Reference.v
theories/Spec_Series.v
theories/Spec_Sharp.v
theories/Spec_Shortest.v
theories/Spec_Special.v
theories/Spec_Stamp.v
theories/Spec_Sun.v
theories/Spec_SunAcc.v
theories/Spec_TaiUtc.v
theories/Spec_Tests.v
theories/Spec_Time.v
theories/Spec_Tools.v
theories/Spec_TowardZero.v
theories/T_Cio.v
theories/T_Epv00.v
theories/T_Nut.v
theories/T_Tests.v
theories/T_TestsBp.v
theories/T_TestsCio.v
theories/T_TestsRot.v
