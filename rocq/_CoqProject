-Q theories Verif
theories/Base.v
theories/PowerTable.v
theories/ConstFn.v
theories/Sqrt.v
theories/U256.v
theories/I256.v
theories/Promo.v
theories/Ops.v
theories/Fixed.v
theories/Str.v
theories/Float.v
theories/Codec.v
theories/Compact.v
theories/Macros.v
theories/Reason.v
theories/Spec.v
theories/SpecText.v
theories/SpecMacro.v
theories/SpecBuild.v
theories/SpecF64.v
theories/Client.v
theories/SpecReason.v
theories/SpecTypes.v
theories/SpecCompact.v
theories/SpecCalls.v
theories/SpecWide.v
theories/SpecRound.v
theories/Meets.v
theories/SpecCheck.v
theories/SpecUndo.v
theories/SpecDoc.v
theories/Series.v
theories/Programs.v
theories/Interval.v
theories/Calls.v
theories/U256Ops.v
theories/BaseFacts.v
theories/RoundFacts.v
theories/ArithProofs.v
theories/PrimPromo.v
theories/WordFacts.v
theories/DivWord.v
theories/ShiftFacts.v
theories/KnuthFacts.v
theories/I256Facts.v
theories/FloatFacts.v
theories/SqrtFacts.v
theories/SimpleProofs.v
theories/MulDiv.v
theories/Sqrt256.v
theories/Wide.v
theories/DecProofs.v
theories/OrderFacts.v
theories/Refute.v
theories/StrFacts.v
theories/ShowFacts.v
theories/CodecFacts.v
theories/MacroFacts.v
theories/LitFacts.v
theories/ProfileFacts.v
theories/F64Facts.v
theories/F64Rel.v
theories/F64Proofs.v
theories/ToF64.v
theories/FloatProps.v
theories/ReasonFacts.v
theories/U128Facts.v
theories/TypeFacts.v
theories/AcceptFacts.v
theories/ProgramFacts.v
theories/PrecFacts.v
theories/F64Near.v
theories/F64Mono.v
theories/F64Faith.v
theories/F64Back.v
theories/F64Steps.v
theories/TextLaws.v
theories/ShowMore.v
theories/CallFacts.v
theories/U256OpsFacts.v
theories/I256Limits.v
theories/RoundLaws.v
theories/F64Order.v
theories/SeriesFacts.v
theories/Checked.v
theories/IntervalFacts.v
theories/SatWrap.v
theories/LawFacts.v
theories/CompactFacts.v
theories/Clients.v
theories/ClientFacts.v
theories/Undo.v
theories/Powers.v
theories/Schema.v
theories/SchemaFacts.v
theories/Average.v
theories/AverageFacts.v
theories/DocFacts.v
theories/SatRun.v
theories/SatFacts.v
theories/ShortFacts.v
theories/Pool.v
theories/PoolFacts.v
theories/AdjointFacts.v
theories/Schedule.v
theories/ScheduleFacts.v
theories/Split.v
theories/SplitFacts.v
theories/Account.v
theories/AccountFacts.v
theories/Calc.v
theories/CalcFacts.v
theories/PrecisionFacts.v
theories/FailFacts.v
theories/PropsBasic.v
theories/PropsMulDiv.v
theories/PropsRound.v
theories/PropsOrder.v
theories/PropsSqrt.v
theories/PropsText.v
theories/PropsCodec.v
theories/PropsMacro.v
theories/PropsProfile.v
theories/PropsFloat.v
theories/PropsReason.v
theories/PropsAccept.v
theories/PropsProgram.v
theories/PropsPrec.v
theories/PropsNear.v
theories/PropsBack.v
theories/PropsTextLaws.v
theories/PropsPanic.v
theories/PropsU256.v
theories/PropsRoundLaws.v
theories/PropsF64Order.v
theories/PropsSeries.v
theories/PropsChecked.v
theories/PropsClient.v
theories/PropsUndo.v
theories/PropsSchema.v
theories/PropsAverage.v
theories/PropsSat.v
theories/PropsShort.v
theories/PropsPool.v
theories/PropsAdjoint.v
theories/PropsSchedule.v
theories/PropsSplit.v
theories/PropsAccount.v
theories/PropsCalc.v
theories/PropsPrecision.v
theories/PropsFail.v
theories/PropsLaws.v
theories/PropsWrap.v
theories/PropsCompact.v
theories/RepoTests.v
theories/DocTests.v
