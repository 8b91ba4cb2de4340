-Q theories Verif
theories/PyBase.v
theories/PyFacts.v
theories/Regex.v
theories/RegexFacts.v
theories/DateTime.v
theories/Utf8.v
theories/Objects.v
theories/Exprs.v
theories/Translate.v
theories/Finder.v
theories/Optimizer.v
theories/Query.v
theories/SpecOps.v
theories/SpecExpr.v
theories/ExprFacts.v
theories/ExprProps.v
theories/PyEqFacts.v
theories/Concrete.v
theories/Properties1.v
theories/SpecText.v
theories/TextFacts.v
theories/LiteralFacts.v
theories/SpecTime.v
theories/DateFacts.v
theories/NumFacts.v
theories/TimeProps.v
theories/SampleFacts.v
theories/SpecBool.v
theories/BoolFacts.v
theories/SpecOccurs.v
theories/WfFacts.v
theories/TameFacts.v
theories/TextProps.v
theories/Properties2.v
theories/SpecQuery.v
theories/RenameFacts.v
theories/PrintProps.v
theories/SpecLogic.v
theories/OptFacts.v
theories/SpecSetters.v
theories/SetterProps.v
theories/SpecRefs.v
theories/FinderFacts.v
theories/ValidateProps.v
theories/OneLine.v
theories/SpecHazard.v
theories/TotalFacts.v
theories/SpecOrder.v
theories/QueryProps.v
theories/ApiTac.v
theories/Properties3.v
theories/Properties4.v
theories/Metrics.v
theories/Peg.v
theories/PegTotal.v
theories/Mql.v
theories/MetricsQuery.v
theories/TestsMql.v
theories/SpecMetrics.v
theories/MetricsFacts.v
theories/FormulaFacts.v
theories/SpecMql.v
theories/SpecArrive.v
theories/MqlParse.v
theories/MqlTokens.v
theories/MqlFilter.v
theories/MqlExpr.v
theories/MqlCall.v
theories/MqlParams.v
theories/MqlBody.v
theories/MqlText.v
theories/MqlRead.v
theories/Properties5.v
theories/MqlPrint.v
theories/SpecKept.v
theories/KeptFacts.v
theories/Properties6.v
theories/SpecMetricsQuery.v
theories/IsoFacts.v
theories/MetricsQueryFacts.v
theories/Properties7.v
theories/Json.v
theories/Request.v
theories/SpecRequest.v
theories/RequestFacts.v
theories/Properties8.v
theories/Strptime.v
theories/Legacy.v
theories/ConcreteLegacy.v
theories/TestsLegacy.v
theories/TestsSdk.v
theories/TestsMetrics.v
theories/Snuba.v
theories/SpecSnuba.v
theories/SnubaFacts.v
theories/SpecLegacy.v
theories/StrptimeFacts.v
theories/LegacyFacts.v
theories/LegacyProps.v
theories/Properties9.v
theories/SpecJson.v
theories/JsonFacts.v
theories/Properties10.v
theories/SpecBody.v
theories/BodyFacts.v
theories/Properties11.v
theories/SpecSnql.v
theories/SnqlFacts.v
theories/SnqlDenote.v
theories/SnqlQuery.v
theories/SpecAlike.v
theories/AlikeFacts.v
theories/Properties12.v
theories/SpecParsed.v
theories/SpecSent.v
theories/MqlTyping.v
theories/MqlActs.v
theories/ParsedPrint.v
theories/SentFacts.v
theories/Properties13.v
theories/Properties14.v
theories/SpecGrammar.v
theories/MqlSem.v
theories/MqlSaid.v
theories/Properties15.v
theories/SpecErrors.v
theories/ErrorFacts.v
theories/Properties16.v
theories/History.v
theories/SpecHistory.v
theories/HistoryFacts.v
theories/Properties17.v
theories/SpecSame.v
theories/SameFacts.v
theories/Properties18.v
theories/Properties19.v
theories/Properties20.v
theories/SpecMSetters.v
theories/Properties21.v
theories/SpecEqual.v
theories/EqText.v
theories/Properties22.v
theories/SpecMEqual.v
theories/EqMql.v
theories/Properties23.v
theories/EqValid.v
theories/EqMValid.v
theories/Properties24.v
theories/SpecMValid.v
theories/Properties25.v
theories/SpecSwap.v
theories/SwapFacts.v
theories/Properties26.v
theories/SpecFromJson.v
theories/FromJsonFacts.v
theories/Properties27.v
theories/SpecShape.v
theories/ShapeFacts.v
theories/Properties28.v
theories/Extend.v
theories/SpecCompose.v
theories/ComposeFacts.v
theories/Properties29.v
theories/Threads.v
theories/SpecThreads.v
theories/ThreadFacts.v
theories/Properties30.v
theories/SpecSpaces.v
theories/SpaceFacts.v
theories/Properties31.v
theories/SpecChange.v
theories/ChangeFacts.v
theories/Properties32.v
theories/SpecKeys.v
theories/KeyFacts.v
theories/Properties33.v
theories/SpecDated.v
theories/DatedFacts.v
theories/Properties34.v
theories/SpecFields.v
theories/Properties35.v
theories/Sharing.v
theories/SpecSharing.v
theories/SharingFacts.v
theories/Properties36.v
theories/SpecValues.v
theories/ValueFacts.v
theories/Properties37.v
theories/Hash.v
theories/SpecHash.v
theories/HashFacts.v
theories/Properties38.v
theories/Nested.v
theories/SpecNested.v
theories/NestedFacts.v
theories/Properties39.v
theories/SpecAssign.v
theories/AssignFacts.v
theories/Properties40.v
theories/SpecInject.v
theories/InjectFacts.v
theories/Properties41.v
theories/SpecReqEqual.v
theories/ReqEqualFacts.v
theories/Properties42.v
theories/PyRepr.v
theories/SpecPyLit.v
theories/PyLitFacts.v
theories/Properties43.v
theories/SpecServer.v
theories/ServerFacts.v
theories/Properties44.v
theories/SpecAsked.v
theories/Properties45.v
theories/SpecStep.v
theories/StepFacts.v
theories/Properties46.v
theories/SpecMetricsStep.v
theories/Properties47.v
theories/Properties48.v
theories/SpecDelete.v
theories/Properties49.v
theories/SpecStr.v
theories/Properties50.v
