-Q theories Verif
theories/Base/Ustr.v
theories/Base/UstrLemmas.v
theories/Base/Utf8.v
theories/Base/Utf8Lemmas.v
theories/Base/Percent.v
theories/Base/PercentLemmas.v
theories/Model/Cls.v
theories/Model/Value.v
theories/Model/Pspec.v
theories/Model/Float.v
theories/Model/Json.v
theories/Model/Tables.v
theories/Model/Calendar.v
theories/Model/Message.v
theories/Model/IdentityAssurance.v
theories/Model/Env.v
theories/Model/Verify.v
theories/Model/TimeUtil.v
theories/Proofs/ValueLemmas.v
theories/Spec/JsonSpec.v
theories/Proofs/JsonLemmas.v
theories/Proofs/Deciders.v
theories/Model/Converter.v
theories/Model/FileStore.v
theories/Model/Labeled.v
theories/Model/Sql.v
theories/Model/Config.v
theories/Spec/CodecSpec.v
theories/Spec/StorageSpec.v
theories/Proofs/CodecLemmas.v
theories/Proofs/StorageLemmas.v
theories/Proofs/StorageHistory.v
theories/Proofs/StorageOther.v
theories/Proofs/LabeledLemmas.v
theories/Proofs/RaceLemmas.v
theories/Proofs/SqlLemmas.v
theories/Proofs/ConfigLemmas.v
theories/Proofs/StorageMore.v
theories/Proofs/StorageSamples.v
theories/Spec/IdaSpec.v
theories/Proofs/IdaLemmas.v
theories/Proofs/StampLemmas.v
theories/Proofs/IdaSamples.v
theories/Spec/VerifySpec.v
theories/Proofs/VerifyLemmas.v
theories/Proofs/DateLemmas.v
theories/Proofs/TokenLemmas.v
theories/Proofs/IdTokenLemmas.v
theories/Proofs/ResponseLemmas.v
theories/Proofs/OtherVerify.v
theories/Spec/TimeSpec.v
theories/Proofs/CalendarLemmas.v
theories/Proofs/TimeLemmas.v
theories/Proofs/ClassVerify.v
theories/Proofs/Samples.v
theories/Properties/Responses.v
theories/Properties/Time.v
theories/Properties/Requests.v
theories/Properties/IdTokens.v
theories/Properties/Tokens.v
theories/Properties/Providers.v
theories/Properties/Codecs.v
theories/Spec/MessageSpec.v
theories/Model/History.v
theories/Proofs/MessageLemmas.v
theories/Proofs/EncodeLemmas.v
theories/Proofs/TypeLemmas.v
theories/Properties/MessageTables.v
theories/Properties/MessageMap.v
theories/Properties/Query.v
theories/Properties/Storage.v
theories/Properties/Config.v
theories/Spec/ZoneSpec.v
theories/Proofs/ZoneLemmas.v
theories/Properties/Ida.v
theories/Spec/RoundTripSpec.v
theories/Proofs/RoundTrip.v
theories/Proofs/RoundTripSamples.v
theories/Properties/RoundTrip.v
theories/Proofs/FuelJson.v
theories/Proofs/FuelLemmas.v
theories/Model/Heap.v
theories/Spec/HeapSpec.v
theories/Proofs/HeapLemmas.v
theories/Properties/Heap.v
theories/Properties/Reading.v
theories/Spec/RequiredSpec.v
theories/Proofs/RequiredLemmas.v
theories/Properties/Required.v
theories/Model/Jose.v
theories/Spec/JoseSpec.v
theories/Proofs/JoseLemmas.v
theories/Proofs/JoseSamples.v
theories/Properties/Jose.v
theories/Spec/MappingSpec.v
theories/Model/Mapping.v
theories/Proofs/MappingLemmas.v
theories/Properties/Mapping.v
theories/Model/Dispatch.v
theories/Spec/DispatchSpec.v
theories/Proofs/DispatchLemmas.v
theories/Properties/Dispatch.v
theories/Model/RequestObject.v
theories/Spec/RequestObjectSpec.v
theories/Proofs/RequestObjectLemmas.v
theories/Proofs/RequestObjectSamples.v
theories/Properties/RequestObject.v
theories/Model/Context.v
theories/Spec/ContextSpec.v
theories/Proofs/ContextLemmas.v
theories/Proofs/ContextSamples.v
theories/Properties/Context.v
theories/Spec/OrderSpec.v
theories/Proofs/OrderLemmas.v
theories/Proofs/OrderSamples.v
theories/Properties/Order.v
theories/Model/Tenants.v
theories/Spec/TenantSpec.v
theories/Proofs/TenantLemmas.v
theories/Proofs/TenantSamples.v
theories/Properties/Tenants.v
theories/Spec/AgainSpec.v
theories/Proofs/AgainLemmas.v
theories/Proofs/AgainSamples.v
theories/Properties/Again.v
theories/Spec/ErrorSpec.v
theories/Proofs/ErrorLemmas.v
theories/Properties/Errors.v
theories/Spec/UnknownSpec.v
theories/Proofs/UnknownLemmas.v
theories/Proofs/UnknownSamples.v
theories/Properties/Unknown.v
theories/Spec/WireSpec.v
theories/Spec/FrameSpec.v
theories/Spec/LogoutSpec.v
theories/Proofs/WireLemmas.v
theories/Proofs/LogoutLemmas.v
theories/Proofs/WireSamples.v
theories/Properties/Wire.v
theories/Proofs/FrameLemmas.v
theories/Proofs/FrameSamples.v
theories/Properties/Frame.v
theories/Spec/RaiseSpec.v
theories/Proofs/RaiseLemmas.v
theories/Proofs/RaiseSamples.v
theories/Properties/Raise.v
theories/Spec/ArgumentSpec.v
theories/Proofs/ArgumentLemmas.v
theories/Proofs/ArgumentSamples.v
theories/Properties/Argument.v
theories/Spec/ProtocolSpec.v
theories/Proofs/ProtocolLemmas.v
theories/Proofs/ProtocolSamples.v
theories/Properties/Protocol.v
theories/Spec/ClockSpec.v
theories/Proofs/ClockLemmas.v
theories/Properties/Clock.v
theories/Spec/FlowSpec.v
theories/Proofs/FlowLemmas.v
theories/Proofs/FlowSamples.v
theories/Properties/Flow.v
theories/Proofs/BindingLemmas.v
theories/Properties/Binding.v
theories/Spec/RequestRuleSpec.v
theories/Proofs/RequestRuleLemmas.v
theories/Proofs/RequestRuleSamples.v
theories/Properties/RequestRules.v
theories/Spec/ConditionSpec.v
theories/Proofs/ConditionLemmas.v
theories/Proofs/ConditionSamples.v
theories/Properties/Condition.v
theories/Spec/PathSpec.v
theories/Proofs/PathLemmas.v
theories/Proofs/PathSamples.v
theories/Spec/StampSpec.v
theories/Proofs/StampRead.v
theories/Proofs/StampInstant.v
theories/Proofs/StampIff.v
theories/Properties/Stamp.v
theories/Spec/FloatSpec.v
theories/Proofs/FloatLemmas.v
theories/Spec/GrammarSpec.v
theories/Proofs/NumberLemmas.v
theories/Proofs/ReprLemmas.v
theories/Proofs/GrammarLemmas.v
theories/Properties/Grammar.v
theories/Spec/QueryTextSpec.v
theories/Proofs/QueryTextLemmas.v
theories/Properties/QueryText.v
theories/Spec/DiscoverySpec.v
theories/Proofs/DiscoveryLemmas.v
theories/Proofs/DiscoverySamples.v
theories/Properties/Discovery.v
theories/Spec/AssertionSpec.v
theories/Proofs/AssertionLemmas.v
theories/Proofs/AssertionSamples.v
theories/Properties/Assertion.v
theories/Spec/ContextStorageSpec.v
theories/Proofs/ExtrasLemmas.v
theories/Properties/Extras.v
theories/Spec/NumeralSpec.v
theories/Proofs/NumeralLemmas.v
theories/Properties/Numerals.v
theories/Model/Serializers.v
theories/Tests/TestKit.v
theories/Tests/Test03.v
theories/Tests/Test04.v
theories/Tests/Test05.v
theories/Tests/Test06.v
theories/Tests/Test07.v
theories/Tests/Test10.v
theories/Spec/SerializerSpec.v
theories/Proofs/SerializerLemmas.v
theories/Proofs/SerializerSamples.v
theories/Properties/Serializers.v
theories/Model/KeyContext.v
theories/Spec/KeyContextSpec.v
theories/Proofs/KeyContextLemmas.v
theories/Proofs/KeyContextSamples.v
theories/Properties/KeyContext.v
theories/Tests/Test12.v
theories/Spec/ClassSpec.v
theories/Proofs/ClassNames.v
theories/Model/Names.v
theories/Proofs/NamesLemmas.v
theories/Properties/Names.v
theories/Proofs/IdaAgain.v
theories/Spec/TokenErrorSpec.v
theories/Proofs/TokenErrorLemmas.v
theories/Proofs/TokenErrorSamples.v
theories/Properties/TokenErrors.v
theories/Spec/RequestErrorSpec.v
theories/Proofs/RequestErrorLemmas.v
theories/Proofs/RequestErrorSamples.v
theories/Properties/RequestErrors.v
theories/Proofs/SentLemmas.v
theories/Proofs/SentSamples.v
theories/Properties/Sent.v
theories/Spec/ClaimsErrorSpec.v
theories/Proofs/ClaimsErrorLemmas.v
theories/Proofs/ClaimsErrorSamples.v
theories/Properties/ClaimsErrors.v
theories/Model/Exceptions.v
theories/Spec/ExceptionSpec.v
theories/Proofs/ExceptionLemmas.v
theories/Properties/Exceptions.v
theories/Model/Layout.v
theories/Spec/LayoutSpec.v
theories/Proofs/LayoutLemmas.v
theories/Proofs/LayoutMore.v
theories/Properties/Layout.v
theories/Spec/SkewSpec.v
theories/Proofs/SkewLemmas.v
theories/Properties/Skew.v
theories/Proofs/RewriteLemmas.v
theories/Proofs/ShortLemmas.v
theories/Properties/Rewrite.v
theories/Proofs/FractionLemmas.v
theories/Properties/Fractions.v
theories/Model/Sessions.v
theories/Spec/SessionSpec.v
theories/Proofs/SessionLemmas.v
theories/Properties/Sessions.v
theories/Spec/SecondsSpec.v
theories/Proofs/SecondsLemmas.v
theories/Proofs/SecondsYear.v
theories/Properties/Seconds.v
theories/Spec/LabelSpec.v
theories/Proofs/LabelLemmas.v
theories/Proofs/LabelSamples.v
theories/Properties/Labels.v
theories/Spec/NewlineSpec.v
theories/Proofs/NewlineLemmas.v
theories/Properties/Newlines.v
theories/Spec/TruthSpec.v
theories/Proofs/TruthLemmas.v
theories/Properties/Truth.v
theories/Proofs/LengthLemmas.v
theories/Properties/Lengths.v
