-Q theories Verif
theories/Base.v
theories/ModelNumber.v
theories/ModelAlign.v
theories/ModelDim.v
theories/ModelStorage.v
theories/Model2D.v
theories/Model3D.v
theories/ModelHelper.v
theories/ModelTraits.v
theories/ModelError.v
theories/Spec.v
theories/SpecTraits.v
theories/History.v
theories/BitProofs.v
theories/NumberProofs.v
theories/VecProofs.v
theories/VecSetProofs.v
theories/CellProofs.v
theories/StorageProofs.v
theories/OrderProofs.v
theories/ConvProofs.v
theories/GridProofs.v
theories/Grid2DProofs.v
theories/Grid3DProofs.v
theories/HistoryProofs.v
theories/NameProofs.v
theories/VecGetProofs.v
theories/ProfileProofs.v
theories/FactsCells.v
theories/ExampleTools.v
theories/ModelSuite.v
theories/ModelTests.v
theories/FactsTree.v
theories/PropCells.v
theories/PropTree.v
theories/FactsOrder.v
theories/FactsConv.v
theories/PropOrder.v
theories/FactsGrid.v
theories/PropConv.v
theories/PropGrid.v
theories/FactsName.v
theories/PropName.v
theories/FactsBits.v
theories/PropBits.v
theories/SafetyProofs.v
theories/FactsHistory.v
theories/PropHistory.v
theories/FactsLimits.v
theories/PropLimits.v
theories/FactsTraits.v
theories/PropTraits.v
theories/FactsAxes.v
theories/PropAxes.v
theories/FactsInts.v
theories/PropInts.v
theories/FactsWide.v
theories/PropWide.v
theories/SpecText.v
theories/TextProofs.v
theories/FactsTrips.v
theories/PropTrips.v
theories/FactsRest.v
theories/PropRest.v
theories/FactsHuge.v
theories/PropHuge.v
theories/FactsShort.v
theories/PropShort.v
theories/ModelBits.v
theories/FactsKinds.v
theories/PropKinds.v
theories/SpecSpace.v
theories/FactsSpace.v
theories/PropSpace.v
theories/ModelStd.v
theories/SpecStd.v
theories/FactsStd.v
theories/PropStd.v
theories/FactsDeep.v
theories/PropDeep.v
theories/SpecUser.v
theories/FactsUser.v
theories/PropUser.v
theories/ModelUser.v
theories/SpecUserBits.v
theories/FactsUserBits.v
theories/PropUserBits.v
theories/ModelUserGrid.v
theories/SpecUserGrid.v
theories/FactsUserGrid.v
theories/PropUserGrid.v
theories/FactsUserOdd.v
theories/PropUserOdd.v
theories/SpecDeep.v
theories/FactsDeepRelease.v
theories/PropDeepRelease.v
theories/ModelDebug.v
theories/SpecDebug.v
theories/FactsDebug.v
theories/PropDebug.v
theories/SpecBytes.v
theories/FactsBytes.v
theories/PropBytes.v
theories/SpecMono.v
theories/FactsMono.v
theories/PropMono.v
theories/FactsUserDims.v
theories/PropUserDims.v
theories/ModelHash.v
theories/SpecMaps.v
theories/FactsMaps.v
theories/PropMaps.v
theories/ModelFlags.v
theories/SpecFlags.v
theories/FactsFlags.v
theories/PropFlags.v
theories/FactsSuite.v
theories/PropSuite.v
theories/FactsAsserts.v
theories/PropAsserts.v
theories/SpecNear.v
theories/FactsNear.v
theories/PropNear.v
theories/SpecCommon.v
theories/FactsCommon.v
theories/PropCommon.v
theories/SpecSplit.v
theories/FactsSplit.v
theories/PropSplit.v
