-Q theories Verif
theories/Base.v
theories/Scalar.v
theories/Linear.v
theories/Particle.v
theories/Sproduct.v
theories/ParticleProofs.v
theories/RealNum.v
theories/SpecSpinor.v
theories/ParticleReal.v
theories/SpinorReal.v
theories/Ready.v
theories/ParticleClaims.v
theories/PropsParticle.v
theories/World.v
theories/SpecSproduct.v
theories/WorldProofs.v
theories/SproductClaims.v
theories/SpecChain.v
theories/ChainReal.v
theories/PropsSproduct.v
theories/PropsChain.v
theories/Integers.v
theories/Process.v
theories/ProcessProofs.v
theories/PropsProcess.v
theories/Utilities.v
theories/Propagator.v
theories/Harness.v
theories/UtilReal.v
theories/PropsUtil.v
theories/HarnessProofs.v
theories/PropsHarness.v
theories/Memory.v
theories/MemoryProofs.v
theories/PropsLinear.v
theories/GeneratorReal.v
theories/PropsGenerators.v
theories/Strings.v
theories/PropsStrings.v
theories/InitProofs.v
theories/PropsInit.v
theories/IEEE.v
theories/FloatErr.v
theories/RoundShell.v
theories/PropsIEEE.v
theories/Lang.v
theories/SMSyntax.v
theories/SMNames.v
theories/SM01.v
theories/SM02.v
theories/SM03.v
theories/SM04.v
theories/SM05.v
theories/SM06.v
theories/SM07.v
theories/SM08.v
theories/SM09.v
theories/SM10.v
theories/SM11.v
theories/SM12.v
theories/SMUser.v
theories/SMAll.v
theories/Pure.v
theories/LangFrame.v
theories/PureProofs.v
theories/ReadOnly.v
theories/Sym.v
theories/SMRun.v
theories/SMTwins.v
theories/SMMasses.v
theories/SMChecks.v
theories/SMFloat.v
theories/PropsClasses.v
theories/SMRebuild.v
theories/PropsRebuild.v
theories/PropsConstruct.v
theories/SMState.v
theories/PropsWidth.v
theories/SMAmp2.v
theories/SymEq.v
theories/SpinColour.v
theories/PropsAmp2.v
theories/SMInv.v
theories/Gluons.v
theories/PropsGluons.v
theories/Copies.v
theories/PropsCopy.v
theories/Poly.v
theories/Covariant.v
theories/Lorentz.v
theories/SpinRot.v
theories/CovReal.v
theories/CovMove.v
theories/PropsLorentz.v
theories/PropsQED.v
theories/PropsAlt.v
theories/Feynman.v
theories/FeynmanAlg.v
theories/FeynmanSum.v
theories/FeynmanLegs.v
theories/FeynmanFlat.v
theories/FeynmanTable.v
theories/FeynmanMatch.v
theories/FeynmanMirror.v
theories/PropsFeynman.v
theories/Tower.v
theories/BosonSpec.v
theories/BosonHom.v
theories/BosonCode.v
theories/BosonCodeOk.v
theories/BosonKin.v
theories/BosonFrame.v
theories/BosonSetup.v
theories/BosonMatch.v
theories/FeynmanPoint.v
theories/BosonCM.v
theories/BosonTable.v
theories/BosonCheck1.v
theories/BosonCheck2.v
theories/BosonCheck3.v
theories/BosonCheck4.v
theories/BosonCheck5.v
theories/PropsBosons.v
theories/PropsHelicities.v
theories/PropsAmplitudes.v
theories/PropsHelicityMasses.v
theories/PropsRounding.v
theories/GluonTable.v
theories/GluonSquare.v
theories/PropsTextbook.v
theories/PropsTextbookMasses.v
theories/TestLang.v
theories/SMTests.v
theories/TestHarness.v
theories/TestSym.v
theories/TestProofs.v
theories/PropsTests.v
theories/PropsVev.v
theories/UnitTests.v
theories/PropsUnit.v
theories/SpTests.v
theories/SpTestsReal.v
theories/SpTestsWorld.v
theories/SpTestsRun.v
theories/PropsSpTests.v
theories/PropsStale.v
theories/Text.v
theories/PropsText.v
