-Q theories Verif
theories/Res.v
theories/FormulaConsts.v
theories/FormulaModel.v
theories/FormulaInt.v
theories/FormulaQuotes.v
theories/RealTools.v
theories/FormulaReal.v
theories/FormulaLower.v
theories/FormulaLarge.v
theories/FormulaTrade.v
theories/FormulaAccuracy.v
theories/PoolSpec.v
theories/FormulaSequence.v
theories/GeneratorModel.v
theories/GeneratorProofs.v
theories/DecimalModel.v
theories/GeneratorReal.v
theories/FormulaPropsProofs.v
theories/FormulaSplit.v
theories/FormulaRound.v
theories/Properties_Orders.v
theories/PySyntax.v
theories/PySource.v
theories/PySemantics.v
theories/SourceFormula.v
theories/SourceBase.v
theories/SourceSteps.v
theories/SourceTokens.v
theories/SourceConverter.v
theories/SourceTrade.v
theories/SourceFallback.v
theories/SourcePath.v
theories/SourceHop.v
theories/SourceNetwork.v
theories/SourceExec.v
theories/Properties_Source.v
theories/Properties_Contracts.v
theories/FormulaVirtual.v
theories/Properties_Formula.v
theories/Codec.v
theories/CodecProofs.v
theories/World.v
theories/WorldBasics.v
theories/WorldSteps.v
theories/WorldExec.v
theories/WorldSpec.v
theories/Scenario.v
theories/WorldInv.v
theories/WorldMoney.v
theories/WorldAuth.v
theories/DirectSpec.v
theories/WorldDirect.v
theories/WorldNet.v
theories/WorldCalls.v
theories/WorldViews.v
theories/WorldConv.v
theories/WorldHop.v
theories/WorldOwner.v
theories/WorldPath.v
theories/WorldCoins.v
theories/WorldTrade.v
theories/WorldMore.v
theories/TradingSpec.v
theories/WorldPool.v
theories/WorldLast.v
theories/Properties_Last.v
theories/PriceSpec.v
theories/WorldPrice.v
theories/WorldReal.v
theories/Properties_Price.v
theories/IssueSpec.v
theories/WorldIssue.v
theories/Properties_Issue.v
theories/PaySpec.v
theories/WorldLogConv.v
theories/WorldPay.v
theories/Properties_Pay.v
theories/WorldLog.v
theories/WorldLive.v
theories/WorldEvents.v
theories/WorldErrors.v
theories/ReadySpec.v
theories/WorldReady.v
theories/OpenSpec.v
theories/WorldOpen.v
theories/WorldKeep.v
theories/WorldTrap.v
theories/WorldAny.v
theories/WorldLoss.v
theories/Properties_Direct.v
theories/Properties_Open.v
theories/Properties_Tokens.v
theories/Properties_Roles.v
theories/Properties_Converter.v
theories/Properties_Network.v
theories/JsonModel.v
theories/JsonSpec.v
theories/JsonProofs.v
theories/JsonScan.v
theories/JsonData.v
theories/Properties_Text.v
theories/Properties_System.v
theories/StorageModel.v
theories/ProxyModel.v
theories/BuilderModel.v
theories/BuilderProofs.v
theories/PackageModel.v
theories/PackageProofs.v
theories/Properties_Tools.v
theories/Properties_Build.v
theories/Properties_Trading.v
theories/Properties_Virtual.v
theories/WorldDepth.v
theories/Properties_Depth.v
theories/Properties_Registry.v
