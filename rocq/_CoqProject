-Q theories Verif
theories/ApiCache.v
theories/ApiTotal.v
theories/BetheBracket.v
theories/BetheProofs.v
theories/Binary64.v
theories/Binary64Lit.v
theories/Binary64Num.v
theories/BinaryRel.v
theories/BoundsAny.v
theories/BoundsProofs.v
theories/Builds.v
theories/CWrapper.v
theories/CacheFresh.v
theories/CacheProofs.v
theories/Calculations.v
theories/Calculator.v
theories/CalculatorMain.v
theories/Cases.v
theories/Catima.v
theories/Convert.v
theories/DataAbundance.v
theories/DataElements.v
theories/DataLSXa.v
theories/DataLSXahi.v
theories/DataLSa.v
theories/DataLSahi.v
theories/DataMaterials.v
theories/DataProofs.v
theories/DataQuadrature.v
theories/DataSrim.v
theories/EnergyOutProofs.v
theories/EnergyTable.v
theories/Generator.v
theories/GlobalCharge.v
theories/GlobalStopping.v
theories/GridProofs.v
theories/Gsl.v
theories/History.v
theories/Integrator.v
theories/InterpProofs.v
theories/KeyEq.v
theories/LSTable.v
theories/LayerProofs.v
theories/LibmZ.v
theories/LibmZProofs.v
theories/Lindhard.v
theories/LnBounds.v
theories/Near.v
theories/NucData.v
theories/Num.v
theories/NumF.v
theories/NumR.v
theories/Nurex.v
theories/PropApi.v
theories/PropBethe.v
theories/PropBuilds.v
theories/PropCache.v
theories/PropCalcFloat.v
theories/PropClose.v
theories/PropConc.v
theories/PropConvert.v
theories/PropCorr.v
theories/PropData.v
theories/PropDedx.v
theories/PropEnergyFloat.v
theories/PropEnergyOut.v
theories/PropFactor.v
theories/PropFormula.v
theories/PropFormulaSrim.v
theories/PropGenerator.v
theories/PropGeneratorTables.v
theories/PropGlobal.v
theories/PropGlobalDedx.v
theories/PropGrid.v
theories/PropGridFloat.v
theories/PropGsl.v
theories/PropHeap.v
theories/PropHyperg.v
theories/PropJump.v
theories/PropJumpSrim.v
theories/PropKin.v
theories/PropKinFloat.v
theories/PropKox.v
theories/PropKronrod.v
theories/PropLSTable.v
theories/PropLayers.v
theories/PropLibm.v
theories/PropLindhard.v
theories/PropLindhardFloat.v
theories/PropLogArray.v
theories/PropMaterial.v
theories/PropMixture.v
theories/PropMono.v
theories/PropMonoApi.v
theories/PropMonoOut.v
theories/PropMonoProton.v
theories/PropMonoProtonOut.v
theories/PropMonoProtonSteep.v
theories/PropMonoStack.v
theories/PropMonoSteep.v
theories/PropMonoStrag.v
theories/PropNurex.v
theories/PropOptions.v
theories/PropPhase.v
theories/PropProgram.v
theories/PropProgramR.v
theories/PropQuad.v
theories/PropRad.v
theories/PropRateFloat.v
theories/PropReact.v
theories/PropResult.v
theories/PropResultFloat.v
theories/PropSafe.v
theories/PropSafeFloat.v
theories/PropSamples.v
theories/PropScatter.v
theories/PropSearch.v
theories/PropSearchFloat.v
theories/PropShift.v
theories/PropSpline.v
theories/PropSplineFloat.v
theories/PropSrim.v
theories/PropStrag.v
theories/PropTableFloat.v
theories/PropTables.v
theories/PropTestCalculations.v
theories/PropTestCalls.v
theories/PropTestStorage.v
theories/PropTestStructures.v
theories/PropThin.v
theories/PropTof.v
theories/PropVetable.v
theories/PropWindow.v
theories/PropWinger.v
theories/PropZeff.v
theories/ProtonBethe.v
theories/ProtonHigh.v
theories/ProtonLindhard.v
theories/ProtonOmega.v
theories/ProtonStopping.v
theories/ProtonStrag.v
theories/QuadProofs.v
theories/Reactions.v
theories/Search.v
theories/SpecData.v
theories/Spline.v
theories/SplineClose.v
theories/SplineMem.v
theories/SplineMono.v
theories/SplineProofs.v
theories/Srim.v
theories/Storage.v
theories/StorageHeap.v
theories/StragTables.v
theories/Structures.v
theories/TestCases.v
theories/ThreadProofs.v
theories/Threads.v
theories/TotalProofs.v
theories/TrigR.v
theories/Vector.v
theories/Vetable.v
