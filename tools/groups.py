{
 'Config': ('''From Verif Require Import PyBase NestedDict Parsers Config ConfigDefault ConfigSpec
  ConfigLemmas ConfigRefuted ConfigAccept ConfigValues ConfigText UnitsLemmas.''', ['ConfigLemmas', 'ConfigRefuted', 'ConfigAccept', 'ConfigValues', 'ConfigText', 'UnitsLemmas']),
 'Emissions': ('''From Verif Require Import Model ModelSpec EmissionLemmas.''', ['EmissionLemmas']),
 'Soft': ('''From Verif Require Import Model ModelSpec SoftLemmas.''', ['SoftLemmas']),
 'Mitigation': ('''From Coquelicot Require Import Coquelicot.
From Verif Require Import Model ModelSpec MitigationLemmas.''', ['MitigationLemmas']),
 'Indicators': ('''From Verif Require Import Model ModelSpec IndicatorLemmas.''', ['IndicatorLemmas']),
 'Economics': ('''From Verif Require Import Model ModelSpec SoftFacts EconLemmas.''', ['EconLemmas']),
 'Build': ('''From Verif Require Import Model ModelSpec Build VarFacts EconLemmas BuildLemmas DefinedFacts.''',
   ['VarFacts', 'BuildLemmas', 'DefinedFacts']),
 'Trade': ('''From Verif Require Import Model ModelSpec Build VarFacts TradeLemmas.''', ['TradeLemmas']),
 'Climate': ('''From Verif Require Import Model ModelSpec ClimateSpec Build BuildLemmas ClimateLemmas.''', ['ClimateLemmas']),
 'Welfare': ('''From Verif Require Import Model ModelSpec WelfareSpec WelfareLemmas.''', ['WelfareLemmas']),
 'Policy': ('''From Verif Require Import Model ModelSpec EconLemmas PolicySpec PolicyLemmas.''', ['PolicyLemmas']),
 'Exist': ('''From Verif Require Import Model ModelSpec ClimateSpec Build BuildLemmas DefinedFacts Simulate SimFacts ExistSpec ExistLemmas ExistExo.''', ['ExistLemmas', 'ExistExo']),
 'SimMode': ('''From Verif Require Import Model ModelSpec Build BuildLemmas VarFacts SimMode SimModeLemmas.''', ['SimModeLemmas']),
 'SimData': ('''From Verif Require Import PyBase NestedDict Config ConfigSpec TimeGrid DataStore DataStoreLemmas RegionalParams RegionalParamsLemmas Instantiate Model ModelSpec Build BuildLemmas SimMode Export SimData SimDataLemmas.
From Coq Require Import QArith Qreals Reals.
Import ListNotations.
Open Scope string_scope.
Open Scope R_scope.''', ['SimDataLemmas']),
 'Export': ('''From Verif Require Import Model ModelSpec Build SimMode Export ExportLemmas.''', ['ExportLemmas']),
 'Session': ('''From Verif Require Import PyBase Session SessionLemmas.
Import ListNotations.
Open Scope string_scope.''', ['SessionLemmas']),
 'TimeGrid': ('''From Verif Require Import PyBase TimeGrid TimeGridLemmas.
Import ListNotations.
Open Scope R_scope.''', ['TimeGridLemmas']),
 'Data': ('''From Verif Require Import PyBase TimeGrid TimeGridLemmas DataStore DataStoreLemmas DataRows.
Import ListNotations.
Open Scope R_scope.
Open Scope string_scope.''', ['DataStoreLemmas', 'DataRows']),
 'Regional': ('''From Verif Require Import PyBase NestedDict Config ConfigSpec DataStore RegionalParams RegionalParamsLemmas.
From Coq Require Import Permutation.
Import ListNotations.
Open Scope string_scope.
Open Scope list_scope.''', ['RegionalParamsLemmas']),
 'Instance': ('''From Verif Require Import PyBase NestedDict Parsers Config ConfigDefault ConfigSpec TimeGrid DataStore RegionalParams Instantiate InstFacts InstantiateLemmas.
Import ListNotations.
Open Scope string_scope.
Open Scope list_scope.''', ['InstantiateLemmas']),
 'Bundled': ('''From Verif Require Import PyBase NestedDict Parsers Config ConfigDefault ConfigSpec TimeGrid DataStore DataStoreLemmas RegionalParams Instantiate InstFacts InstantiateLemmas BundledData BundledFacts BundledSigns.
From Coq Require Import QArith Permutation Reals.
Import ListNotations.
Open Scope string_scope.
Open Scope list_scope.
Open Scope R_scope.''', ['BundledFacts','BundledSigns']),
 'Loading': ('''From Verif Require Import PyBase NestedDict Parsers Config ConfigDefault ConfigSpec TimeGrid DataStore RegionalParams Instantiate InstFacts InstantiateLemmas Loading LoadingLemmas LoadingExist.
From Coq Require Import Reals.
Import ListNotations.
Open Scope string_scope.
Open Scope list_scope.
Open Scope R_scope.''', ['LoadingLemmas','LoadingExist']),
 'EndToEnd': ('''From Verif Require Import PyBase NestedDict Parsers Config ConfigDefault ConfigSpec TimeGrid DataStore DataStoreLemmas RegionalParams Instantiate InstFacts InstantiateLemmas BundledData BundledFacts BundledSigns Model ModelSpec Build BuildLemmas DefinedFacts Loading LoadingLemmas LoadingExist EndToEnd.
From Coq Require Import QArith Qreals Permutation Reals.
Import ListNotations.
Open Scope string_scope.
Open Scope list_scope.
Open Scope R_scope.''', ['EndToEnd']),
 'Sharing': ('''From Verif Require Import PyBase NestedDict Parsers Config ConfigDefault ConfigSpec InstFacts Sharing SharingSpec SharingLemmas SharingExample.
Import ListNotations.
Open Scope string_scope.
Open Scope list_scope.''', ['SharingLemmas','SharingExample']),
 'Scope': ('''From Verif Require Import PyBase NestedDict Parsers Config ConfigDefault ConfigSpec TimeGrid DataStore RegionalParams Instantiate InstFacts DataStoreLemmas BundledFacts
  Model WelfareSpec Loading Setters2 Horizon RegionOrder SameInputs ScopeLemmas ScopeExample.
From Coq Require Import Reals QArith Qreals Permutation.
Import ListNotations.
Open Scope string_scope.
Open Scope list_scope.
Open Scope R_scope.''', ['Horizon','RegionOrder','ScopeLemmas']),
 'Saved': ('''From Verif Require Import PyBase SoftFacts ModelSpec Build Export SavedLemmas SavedExample.
Open Scope R_scope.''', ['SavedLemmas']),
 'Determined': ('''From Verif Require Import PyBase NestedDict Parsers Config ConfigDefault ConfigSpec TimeGrid DataStore RegionalParams Instantiate InstFacts DataStoreLemmas BundledData BundledFacts
  InstantiateLemmas ConstructFacts BundledSigns Model WelfareSpec Build Loading EndToEnd SameInputs ScopeLemmas Determined DeterminedData DeterminedExample.
From Coq Require Import Reals QArith Qreals Permutation.
Import ListNotations.
Open Scope string_scope.
Open Scope list_scope.
Open Scope R_scope.''', ['Determined','DeterminedData']),
 'Optimum': ('''From Verif Require Import PyBase NestedDict Parsers Config ConfigDefault ConfigSpec TimeGrid DataStore DataStoreLemmas RegionalParams Instantiate InstFacts InstantiateLemmas
  ConstructFacts BundledData BundledFacts BundledSigns Model ModelSpec ClimateSpec WelfareSpec Build BuildLemmas DefinedFacts ExistSpec ExistLemmas
  Loading LoadingLemmas LoadingExist EndToEnd OptimumLemmas OptimumHarm OptimumConfig BaselineRun.
From Coq Require Import QArith Qreals Permutation Reals.
Import ListNotations.
Open Scope string_scope.
Open Scope list_scope.
Open Scope R_scope.''', ['OptimumLemmas', 'OptimumHarm', 'OptimumConfig', 'BaselineRun']),
 'Dominance': ('''From Verif Require Import PyBase NestedDict Parsers Config ConfigDefault ConfigSpec TimeGrid DataStore DataStoreLemmas RegionalParams Instantiate InstFacts InstantiateLemmas
  ConstructFacts BundledData BundledFacts BundledSigns Model ModelSpec ClimateSpec WelfareSpec Build BuildLemmas DefinedFacts ExistSpec ExistLemmas
  Loading LoadingLemmas LoadingExist EndToEnd DeterminedData SimMode EconLemmas DominanceSpec DominanceLemmas DominanceSim DominanceConfig.
From Coq Require Import QArith Qreals Permutation Reals.
Import ListNotations.
Open Scope string_scope.
Open Scope list_scope.
Open Scope R_scope.''', ['DominanceLemmas', 'DominanceSim', 'DominanceConfig']),
 'Drift': ('''From Verif Require Import PyBase NestedDict Parsers Config ConfigDefault ConfigSpec TimeGrid DataStore DataStoreLemmas RegionalParams Instantiate InstFacts InstantiateLemmas
  ConstructFacts BundledData BundledFacts BundledSigns Model ModelSpec SoftFacts ClimateSpec WelfareSpec Build BuildLemmas DefinedFacts ExistSpec ExistLemmas ExistExo
  Loading LoadingLemmas LoadingExist EndToEnd DeterminedData SimMode EconLemmas DominanceSpec DominanceLemmas DominanceConfig DriftSpec DriftLemmas DriftExist DriftConfig.
From Coq Require Import QArith Qreals Permutation Reals.
Import ListNotations.
Open Scope string_scope.
Open Scope list_scope.
Open Scope R_scope.''', ['DriftLemmas', 'DriftExist', 'DriftConfig']),
 'Targets': ('''From Verif Require Import ModelFacts SoftFacts ModelSpec WelfareSpec PolicySpec TargetSpec TargetLemmas.
From Coq Require Import Reals List.
Open Scope R_scope.''', ['TargetLemmas']),
 'Convex': ('''From Verif Require Import ModelFacts SoftFacts ModelSpec Build BuildLemmas ClimateSpec ClimateLemmas WelfareSpec MitigationLemmas PolicySpec HotellingSpec ConvexSpec ConvexLemmas.
From Coq Require Import Reals List.
Import ListNotations.
Open Scope R_scope.''', ['ConvexLemmas']),
 'Prices': ('''From Verif Require Import ModelSpec SoftFacts ClimateSpec WelfareSpec Build BuildLemmas DefinedFacts DominanceSpec ReallocateSpec PriceLemmas ShadowSpec ShadowPrice HotellingSpec HotellingLemmas.
From Coq Require Import Reals List.
Import ListNotations.
Open Scope R_scope.''', ['PriceLemmas','ShadowPrice','HotellingLemmas']),
}
