-Q theories Verif
theories/Base.v
theories/M_Checkbits.v
theories/S_Checkbits.v
theories/P_Checkbits.v
theories/Properties_Checkbits.v
theories/Num.v
theories/M_Stellarium.v
theories/S_Stellarium.v
theories/P_Stellarium.v
theories/P_Stellarium2.v
theories/Properties_Stellarium.v
theories/M_Linalg.v
theories/M_Helper.v
theories/M_Alignment.v
theories/P_Alignment.v
theories/S_Alignment.v
theories/P_AlignState.v
theories/P_AlignState2.v
theories/P_Linalg.v
theories/P_AlignSmall.v
theories/P_AlignR.v
theories/P_AlignWitness.v
theories/Properties_Alignment.v
theories/M_Libc.v
theories/P_Libc.v
theories/M_Gnss.v
theories/S_Gnss.v
theories/P_Round.v
theories/P_Gnss.v
theories/P_Gnss2.v
theories/P_Gnss3.v
theories/P_Gnss4.v
theories/Properties_Gnss.v
theories/S_Helper.v
theories/P_Helper.v
theories/P_Helper2.v
theories/Properties_Helper.v
theories/M_Telescope.v
theories/S_Sky.v
theories/P_Sky.v
theories/Properties_Sky.v
theories/M_NexStar.v
theories/S_NexStar.v
theories/P_NexStar.v
theories/Properties_NexStar.v
theories/P_NexStarR.v
theories/Properties_NexStar2.v
theories/Properties_Encode.v
theories/M_Led.v
theories/Properties_Led.v
theories/M_Imu.v
theories/P_Imu.v
theories/Properties_Imu.v
theories/M_Persistency.v
theories/Properties_Persistency.v
theories/M_Main.v
theories/P_Sched.v
theories/P_Main.v
theories/P_Main2.v
theories/Properties_Main.v
theories/Properties_Main2.v
theories/Properties_Main3.v
theories/P_Device.v
theories/Properties_Device.v
theories/Properties_Device2.v
theories/Properties_Heading.v
theories/S_Json.v
theories/P_Json.v
theories/P_Publish.v
theories/Properties_Publish.v
theories/M_Race.v
theories/Properties_Race.v
theories/M_Node.v
theories/M_Python.v
theories/P_Node.v
theories/Properties_Node.v
theories/Properties_Python.v
theories/P_DelaunayGeo.v
theories/P_DelaunayTag.v
theories/P_DelaunayStep.v
theories/S_Delaunay.v
theories/P_DelaunayAlg.v
theories/P_DelaunayCover.v
theories/P_DelaunayEx.v
theories/Properties_Delaunay.v
theories/S_Device.v
theories/P_Device2.v
theories/S_Safe.v
theories/P_Safe.v
theories/Properties_Device3.v
theories/P_Device3.v
theories/Properties_Device4.v
theories/Properties_Device5.v
theories/Properties_Device6.v
theories/P_TriIEEE.v
theories/P_NearB.v
theories/Properties_TriIEEE.v
theories/M_Setup.v
theories/S_Setup.v
theories/P_Setup.v
theories/Properties_Setup.v
theories/Properties_Setup2.v
theories/M_LinalgN.v
theories/S_LinalgN.v
theories/P_LinalgN.v
theories/P_LinalgDet.v
theories/P_Linalg3.v
theories/Properties_LinalgN.v
theories/M_Sparse.v
theories/Properties_Sparse.v
theories/Properties_Device7.v
theories/Properties_Device7Ex.v
theories/S_Telemetry.v
theories/P_Telemetry.v
theories/Properties_Telemetry.v
theories/Properties_Telemetry2.v
theories/Properties_Pitch.v
theories/M_Race2.v
theories/Properties_Race2.v
theories/M_Gyro.v
theories/Properties_Gyro.v
theories/Properties_Device8.v
theories/S_SkyIEEE.v
theories/P_SkyIEEE.v
theories/P_SkyIEEE2.v
theories/P_OneIEEE.v
theories/P_LstIEEE.v
theories/P_Angle.v
theories/Properties_SkyIEEE.v
theories/Properties_Malformed.v
theories/P_LinIEEE.v
theories/P_LinIEEE2.v
theories/P_LinIEEE3.v
theories/P_LinIEEE4.v
theories/P_LinIEEE5.v
theories/P_LinIEEE6.v
theories/P_AlignIEEE.v
theories/Properties_AlignIEEE.v
theories/Properties_DeviceIEEE.v
theories/P_NumCorr.v
theories/S_Libm.v
theories/P_Libm.v
theories/P_Finite.v
theories/Properties_Finite.v
theories/P_NodeIEEE.v
theories/Properties_NodeFinite.v
theories/Properties_NodeFinite2.v
theories/P_LstFinite.v
theories/Properties_FiniteDevice.v
theories/Properties_FiniteMessages.v
theories/P_LinFinite.v
theories/P_AlignFinite.v
theories/Properties_AlignFinite.v
theories/P_Angle2.v
theories/Properties_FiniteDevice2.v
theories/Properties_FiniteMessages2.v
theories/Properties_FiniteMessages3.v
theories/Properties_FiniteSync.v
theories/Properties_FiniteGoto.v
