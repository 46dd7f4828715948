-Q theories Verif
theories/ExecLibm.v
theories/F32.v
theories/F64.v
theories/LMat.v
theories/LOtf.v
theories/LPins.v
theories/LSlog.v
theories/LStream.v
theories/MDefault.v
theories/MDelta.v
theories/MFma.v
theories/MOtf.v
theories/MSolver.v
theories/MSpectrum.v
theories/MStream.v
theories/MStreamNd.v
theories/MTri.v
theories/MVec.v
theories/Num.v
theories/NumF.v
theories/NumR.v
theories/PBksF.v
theories/PBksNan.v
theories/PBlackF.v
theories/PBluer.v
theories/PBluer2.v
theories/PBluer3.v
theories/PBradF.v
theories/PCct.v
theories/PCctF.v
theories/PClip.v
theories/PCodes.v
theories/PCodes2.v
theories/PCover.v
theories/PCross.v
theories/PCt.v
theories/PCt2.v
theories/PD50.v
theories/PD65.v
theories/PDefault.v
theories/PDelta.v
theories/PDeltaF.v
theories/PE00.v
theories/PE00F.v
theories/PE00F2.v
theories/PE00acc.v
theories/PE00acc2.v
theories/PE00acc3.v
theories/PE00acc4.v
theories/PE00acc5.v
theories/PE00acc6.v
theories/PE00acc7.v
theories/PE00acc8.v
theories/PE00b.v
theories/PE00c.v
theories/PE00d.v
theories/PE00e.v
theories/PEuclF.v
theories/PEuclM.v
theories/PExt.v
theories/PFetchI.v
theories/PFetchU.v
theories/PFma.v
theories/PFma10.v
theories/PFma11.v
theories/PFma2.v
theories/PFma3.v
theories/PFma4.v
theories/PFma5.v
theories/PFma6.v
theories/PFma7.v
theories/PFma8.v
theories/PFma9.v
theories/PGamF.v
theories/PGamF2.v
theories/PGamF3.v
theories/PGamut.v
theories/PGamut2.v
theories/PGrey.v
theories/PHexcone.v
theories/PHsv.v
theories/PHsvA.v
theories/PHsvAF.v
theories/PHsvF.v
theories/PHsvSym.v
theories/PHsvT.v
theories/PHsvU.v
theories/PICtCp.v
theories/PICtStd.v
theories/PIctF.v
theories/PImg.v
theories/PImg2.v
theories/PImg3.v
theories/PInside.v
theories/PInvF.v
theories/PIvF.v
theories/PLab.v
theories/PLabF.v
theories/PLibm.v
theories/PLocF.v
theories/PMat.v
theories/PMatF.v
theories/PMod360.v
theories/PMono.v
theories/PNan.v
theories/PNearF.v
theories/PNearF2.v
theories/PObsF.v
theories/POkF.v
theories/POklab.v
theories/POrd.v
theories/POrd2.v
theories/POrd3.v
theories/POtf.v
theories/POtf2.v
theories/POtf3.v
theories/POtfF.v
theories/POtfF2.v
theories/POtfF3.v
theories/PPlanck.v
theories/PPlanckF.v
theories/PPoly.v
theories/PPowF.v
theories/PPqF.v
theories/PPythF.v
theories/PRelF.v
theories/PResamp.v
theories/PSlogC.v
theories/PSlogF.v
theories/PSolver.v
theories/PSolver2.v
theories/PSolver3.v
theories/PSpec.v
theories/PSpec2.v
theories/PSpecF.v
theories/PSqrt.v
theories/PSqrtF.v
theories/PStd.v
theories/PStops.v
theories/PStream.v
theories/PStream2.v
theories/PStream3.v
theories/PStreamNd.v
theories/PSurf.v
theories/PSvd.v
theories/PSvd2.v
theories/PSvd3.v
theories/PSvd4.v
theories/PSvd5.v
theories/PSvd6.v
theories/PSvd7.v
theories/PSvd8.v
theories/PSvd9.v
theories/PTables.v
theories/PTri.v
theories/PVec.v
theories/PYuvF.v
theories/PYxyF.v
theories/PropsDelta.v
theories/PropsExt.v
theories/PropsExt10.v
theories/PropsExt11.v
theories/PropsExt12.v
theories/PropsExt13.v
theories/PropsExt14.v
theories/PropsExt15.v
theories/PropsExt16.v
theories/PropsExt17.v
theories/PropsExt18.v
theories/PropsExt19.v
theories/PropsExt2.v
theories/PropsExt20.v
theories/PropsExt21.v
theories/PropsExt22.v
theories/PropsExt23.v
theories/PropsExt24.v
theories/PropsExt25.v
theories/PropsExt26.v
theories/PropsExt27.v
theories/PropsExt28.v
theories/PropsExt29.v
theories/PropsExt3.v
theories/PropsExt30.v
theories/PropsExt31.v
theories/PropsExt32.v
theories/PropsExt33.v
theories/PropsExt34.v
theories/PropsExt35.v
theories/PropsExt36.v
theories/PropsExt37.v
theories/PropsExt38.v
theories/PropsExt39.v
theories/PropsExt4.v
theories/PropsExt40.v
theories/PropsExt41.v
theories/PropsExt42.v
theories/PropsExt43.v
theories/PropsExt44.v
theories/PropsExt5.v
theories/PropsExt6.v
theories/PropsExt7.v
theories/PropsExt8.v
theories/PropsExt9.v
theories/PropsGamut.v
theories/PropsLab.v
theories/PropsMat.v
theories/PropsOtf.v
theories/PropsSolver.v
theories/PropsSpectrum.v
theories/PropsSqrt.v
theories/PropsStream.v
theories/PropsSvd.v
theories/PropsTri.v
theories/RExp.v
theories/RLin.v
theories/RPow.v
theories/RSvd.v
theories/RTac.v
theories/SpecDelta.v
theories/SpecHsv.v
theories/SpecIct.v
theories/SpecMat.v
theories/SpecOklab.v
theories/SpecOtf.v
theories/SpecPlanck.v
theories/SpecStream.v
theories/SpecStreamNd.v
theories/Tables.v
theories/TablesCES.v
theories/Validation.v
