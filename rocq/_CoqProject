-Q theories Verif
theories/Int32.v
theories/M_Calendar.v
theories/S_Calendar.v
theories/L_Calendar.v
theories/L_Clyd.v
theories/P_Calendar.v
theories/Num.v
theories/NumR.v
theories/L_Real.v
theories/M_Vec.v
theories/S_Geom.v
theories/L_Vec.v
theories/M_Mem.v
theories/L_Mem.v
theories/L_Rot.v
theories/P_Vec.v
theories/L_Pi.v
theories/S_Sphere.v
theories/M_Angle.v
theories/S_Angle.v
theories/L_Angle.v
theories/P_Angle.v
theories/M_Sphere.v
theories/L_Sphere.v
theories/L_Bear.v
theories/L_Altaz.v
theories/L_Tan.v
theories/L_Tps.v
theories/L_Pda.v
theories/L_SphCase.v
theories/P_Sphere.v
theories/M_Enum.v
theories/S_Enum.v
theories/L_Enum.v
theories/P_Enum.v
theories/M_Nutc.v
theories/M_Epoch.v
theories/S_Frame.v
theories/M_Frame.v
theories/L_Trig.v
theories/L_Gal.v
theories/L_Frame.v
theories/L_FrameGal.v
theories/L_FrameThm.v
theories/S_Nut.v
theories/L_Nut.v
theories/L_NutDiff.v
theories/P_Frame.v
theories/S_Epoch.v
theories/L_Epoch.v
theories/L_Dat.v
theories/P_Epoch.v
theories/M_Plate.v
theories/S_Plate.v
theories/L_Plate.v
theories/P_Plate.v
theories/M_Site.v
theories/S_Site.v
theories/L_Site.v
theories/P_Site.v
theories/M_Refr.v
theories/S_Refr.v
theories/L_Refr.v
theories/L_Refr2.v
theories/L_Refr3.v
theories/L_Refr4.v
theories/P_Refr.v
theories/M_Obs.v
theories/S_Obs.v
theories/L_Obs.v
theories/P_Obs.v
theories/M_Lin.v
theories/S_Lin.v
theories/L_Sum.v
theories/L_Dmat.v
theories/L_Lin.v
theories/L_Lsq.v
theories/P_Lin.v
theories/M_Fit.v
theories/S_Fit.v
theories/L_Fit.v
theories/P_Fit.v
theories/M_EphTab.v
theories/M_Eph.v
theories/S_Eph.v
theories/L_Eph.v
theories/L_EphB.v
theories/L_Moon.v
theories/L_MoonB.v
theories/L_Moon2.v
theories/P_Eph.v
theories/NumB.v
theories/M_Single.v
theories/S_Binary.v
theories/L_Bin.v
theories/L_BinAngle.v
theories/L_BinDate.v
theories/L_BinTf.v
theories/L_Binary.v
theories/P_Binary.v
theories/M_Svd.v
theories/S_Svd.v
theories/L_SvdA.v
theories/L_SvdB.v
theories/L_SvdC.v
theories/L_SvdD.v
theories/L_SvdE.v
theories/L_Svd.v
theories/L_SvdBin.v
theories/P_Svd.v
theories/M_RccTab.v
theories/M_Rcc.v
theories/S_Rcc.v
theories/L_Rcc.v
theories/P_Rcc.v
theories/M_Misc.v
theories/S_Misc.v
theories/L_Misc.v
theories/P_Misc.v
theories/M_EvpTab.v
theories/M_Evp.v
theories/S_Evp.v
theories/L_EvpA.v
theories/L_EvpB.v
theories/L_EvpC.v
theories/L_EvpD.v
theories/L_EvpE.v
theories/L_EvpF.v
theories/L_EvpG.v
theories/L_EvpH.v
theories/L_EvpI.v
theories/L_EvpJ.v
theories/L_EvpK.v
theories/P_Evp.v
theories/S_Moon.v
theories/L_Moon3.v
theories/L_Moon4.v
theories/L_Moon5.v
theories/L_Moon6.v
theories/L_Moon7.v
theories/L_Moon8.v
theories/L_Moon9.v
theories/L_Moon10.v
theories/P_Moon.v
theories/L_Flt.v
theories/S_Float.v
theories/L_FltVec.v
theories/L_Float.v
theories/L_FloatVec.v
theories/L_FloatMat.v
theories/L_FloatLibm.v
theories/P_Float.v
theories/L_FltGeo.v
theories/L_FloatSph.v
theories/P_Float2.v
theories/L_Err.v
theories/L_ErrT.v
theories/L_FloatFrame.v
theories/S_FloatSph.v
theories/L_FloatLand.v
theories/P_Float3.v
theories/S_FloatTf.v
theories/L_FloatTf.v
theories/L_FloatEp.v
theories/L_FloatSid.v
theories/P_Float4.v
theories/S_FloatHor.v
theories/L_FloatHor.v
theories/P_Float5.v
theories/L_FloatTan.v
theories/L_FloatRv.v
theories/L_FloatDt.v
theories/P_Float6.v
theories/L_FloatEt.v
theories/P_Float7.v
theories/S_FloatObs.v
theories/L_FloatObs.v
theories/L_FloatPm.v
theories/P_Float8.v
theories/L_FloatNut.v
theories/L_FloatNutc.v
theories/L_FloatNutm.v
theories/P_Float9.v
theories/L_FloatPol.v
theories/L_FloatAv.v
theories/L_FloatAz.v
theories/P_Float10.v
theories/L_FloatRefv.v
theories/L_FloatRefz.v
theories/P_Float11.v
theories/S_FloatPlate.v
theories/L_FltRel.v
theories/L_FloatPv.v
theories/S_Float32.v
theories/L_Float32.v
theories/P_Float12.v
theories/L_FloatPxy.v
theories/L_FloatInv.v
theories/L_FloatPs.v
theories/L_FloatPav.v
theories/L_FloatVtp.v
theories/P_Float14.v
theories/P_Float13.v
theories/S_Agree.v
theories/L_Agree.v
theories/L_Agree2.v
theories/L_Agree3.v
theories/L_Agree4.v
theories/P_Agree.v
