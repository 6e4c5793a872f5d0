-Q theories Verif
theories/BaselineRun.v
theories/Blend.v
theories/Bounds.v
theories/Build.v
theories/BuildFacts.v
theories/BuildLemmas.v
theories/BundledData.v
theories/BundledExample.v
theories/BundledFacts.v
theories/BundledSigns.v
theories/ClimateLemmas.v
theories/ClimateSpec.v
theories/Compact.v
theories/Config.v
theories/ConfigAccept.v
theories/ConfigBridge.v
theories/ConfigDefault.v
theories/ConfigFacts.v
theories/ConfigFacts2.v
theories/ConfigFacts3.v
theories/ConfigLemmas.v
theories/ConfigRefuted.v
theories/ConfigSpec.v
theories/ConfigText.v
theories/ConfigValues.v
theories/ConstructFacts.v
theories/ConvexExample.v
theories/ConvexLemmas.v
theories/ConvexSpec.v
theories/DataRows.v
theories/DataStore.v
theories/DataStoreLemmas.v
theories/DefinedFacts.v
theories/Determined.v
theories/DeterminedData.v
theories/DeterminedExample.v
theories/DominanceConfig.v
theories/DominanceExample.v
theories/DominanceLemmas.v
theories/DominanceSim.v
theories/DominanceSpec.v
theories/DriftConfig.v
theories/DriftExample.v
theories/DriftExist.v
theories/DriftLemmas.v
theories/DriftSpec.v
theories/EconLemmas.v
theories/EmissionLemmas.v
theories/EndToEnd.v
theories/EndToEndExample.v
theories/Equations.v
theories/Equations2.v
theories/Example.v
theories/Exchange.v
theories/ExistExo.v
theories/ExistFacts.v
theories/ExistLemmas.v
theories/ExistSpec.v
theories/Export.v
theories/ExportLemmas.v
theories/Expr.v
theories/Horizon.v
theories/HotellingExample.v
theories/HotellingLemmas.v
theories/HotellingSpec.v
theories/IndicatorLemmas.v
theories/InstFacts.v
theories/Instantiate.v
theories/InstantiateLemmas.v
theories/LimitModel.v
theories/Limits.v
theories/Loading.v
theories/LoadingExist.v
theories/LoadingLemmas.v
theories/MitigationLemmas.v
theories/Model.v
theories/ModelFacts.v
theories/ModelSpec.v
theories/Names.v
theories/NestedDict.v
theories/NestedDictFacts.v
theories/Optimum.v
theories/OptimumConfig.v
theories/OptimumExample.v
theories/OptimumHarm.v
theories/OptimumLemmas.v
theories/Parsers.v
theories/PolicyLemmas.v
theories/PolicySpec.v
theories/PowFacts.v
theories/PriceExample.v
theories/PriceLemmas.v
theories/Properties_Build.v
theories/Properties_Bundled.v
theories/Properties_Climate.v
theories/Properties_Config.v
theories/Properties_Convex.v
theories/Properties_Data.v
theories/Properties_Determined.v
theories/Properties_Dominance.v
theories/Properties_Drift.v
theories/Properties_Economics.v
theories/Properties_Emissions.v
theories/Properties_EndToEnd.v
theories/Properties_Exist.v
theories/Properties_Export.v
theories/Properties_Indicators.v
theories/Properties_Instance.v
theories/Properties_Loading.v
theories/Properties_Mitigation.v
theories/Properties_Optimum.v
theories/Properties_Policy.v
theories/Properties_Prices.v
theories/Properties_Regional.v
theories/Properties_Saved.v
theories/Properties_Scope.v
theories/Properties_Session.v
theories/Properties_Sharing.v
theories/Properties_SimData.v
theories/Properties_SimMode.v
theories/Properties_Soft.v
theories/Properties_Targets.v
theories/Properties_TimeGrid.v
theories/Properties_Trade.v
theories/Properties_Welfare.v
theories/PyBase.v
theories/Reallocate.v
theories/ReallocateSpec.v
theories/RefFacts.v
theories/RegionOrder.v
theories/RegionalParams.v
theories/RegionalParamsLemmas.v
theories/Reschedule.v
theories/RightDeriv.v
theories/SameInputs.v
theories/SavedExample.v
theories/SavedLemmas.v
theories/ScopeExample.v
theories/ScopeLemmas.v
theories/Session.v
theories/SessionLemmas.v
theories/Setters.v
theories/Setters2.v
theories/Setters3.v
theories/ShadowExample.v
theories/ShadowLemmas.v
theories/ShadowPrice.v
theories/ShadowSpec.v
theories/Sharing.v
theories/SharingExample.v
theories/SharingLemmas.v
theories/SharingSpec.v
theories/SimData.v
theories/SimDataLemmas.v
theories/SimExample.v
theories/SimFacts.v
theories/SimMode.v
theories/SimModeLemmas.v
theories/Simulate.v
theories/SoftFacts.v
theories/SoftLemmas.v
theories/SolveFacts.v
theories/Subsequence.v
theories/TargetExample.v
theories/TargetLemmas.v
theories/TargetSpec.v
theories/TimeGrid.v
theories/TimeGridLemmas.v
theories/TradeLemmas.v
theories/Transfer.v
theories/UnitsFacts.v
theories/UnitsLemmas.v
theories/VarFacts.v
theories/WelfareLemmas.v
theories/WelfareSpec.v
