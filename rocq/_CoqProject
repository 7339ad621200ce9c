-Q theories Verif
theories/Outcome.v
theories/RealOps.v
theories/MathModel.v
theories/ColorModel.v
theories/AdaptModel.v
theories/SpaceModel.v
theories/TransformModel.v
theories/ExampleModel.v
theories/LabModel.v
theories/IllumModel.v
theories/InterpModel.v
theories/VspdModel.v
theories/SpdModel.v
theories/DataIllum.v
theories/DataCmf.v
theories/DataUplift.v
theories/DataSpd.v
theories/DataChecker.v
theories/UpliftModel.v
theories/XReal.v
theories/SpecLin.v
theories/FloatInst.v
theories/FloatProofs.v
theories/MatProofs.v
theories/GjProofs.v
theories/PropMatrix.v
theories/PropColor.v
theories/AdaptProofs.v
theories/PropAdapt.v
theories/SpaceProofs.v
theories/PropSpace.v
theories/PropTransform.v
theories/TransferProofs.v
theories/PropTransfer.v
theories/LabProofs.v
theories/PropLab.v
theories/PropIllum.v
theories/VspdProofs.v
theories/PropSpd.v
theories/PropShape.v
theories/SpragueProofs.v
theories/PropSprague.v
theories/AlignProofs.v
theories/PropAlign.v
theories/LagrangeProofs.v
theories/WeightProofs.v
theories/PropWeights.v
theories/LinProofs.v
theories/XyzProofs.v
theories/PropXyz.v
theories/PropDiffuser.v
theories/PropTables.v
theories/WhiteProofs.v
theories/PropWhite.v
theories/ErrProofs.v
theories/PropFloat.v
theories/PropGamut.v
theories/KahanProofs.v
theories/PropKahan.v
theories/PropHero.v
theories/PropDe.v
theories/PropRound.v
theories/PropPixel.v
theories/RelErr.v
theories/CurveProofs.v
theories/PropCurve.v
theories/PropLum.v
theories/PropSelf.v
theories/LabErrProofs.v
theories/LabTripProofs.v
theories/PropLabFloat.v
theories/PropWork.v
theories/PropExample.v
theories/ConvMat.v
theories/ConvProofs.v
theories/PropConv.v
theories/HeroModel.v
theories/StratProofs.v
theories/HeroProofs.v
theories/PolyProofs.v
theories/PropEstimate.v
theories/SpragueErrProofs.v
theories/PropInterp.v
theories/PropStab.v
theories/GridProofs.v
theories/PropXyzFloat.v
theories/PropXyzTables.v
theories/TenProofs.v
theories/PropXyzTen.v
theories/PropChecker.v
theories/DataReference.v
theories/RefProofs.v
theories/PropRef.v
theories/PowProofs.v
theories/PropRefEnc.v
theories/PropReadme.v
theories/LogProofs.v
theories/PropLogc.v
theories/PropFast.v
theories/PropUplift.v
theories/OppProofs.v
theories/PropDelta.v
theories/PropJump.v
theories/ExpProofs.v
theories/DataLogc.v
theories/PropRefLog.v
theories/PropAlexa.v
theories/PropDaylight.v
theories/PropXyy.v
theories/PropGrey.v
theories/PropApprox.v
theories/PropCat.v
theories/PropInv.v
theories/PropBuild.v
theories/PropNew.v
theories/PropNit.v
theories/DataKeyed.v
theories/CheckerModel.v
theories/PropKeyed.v
theories/PropTrip.v
theories/ShowModel.v
theories/PropShow.v
theories/PropAlexaSelf.v
theories/PropLocal.v
theories/PropRealign.v
theories/PropStops.v
theories/PropStopsLab.v
theories/PropStopsCat.v
theories/PropStopsSpd.v
theories/PropOdd.v
theories/PropUp.v
