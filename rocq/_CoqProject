-Q theories Verif
theories/Outcome.v
theories/Ints.v
theories/SplMath.v
theories/DfsPrecise.v
theories/LinearCurve.v
theories/Fees.v
theories/ConstantPrice.v
theories/ConstantProduct.v
theories/OffsetCurve.v
theories/StableCurve.v
theories/SwapCurve.v
theories/Codec.v
theories/Token.v
theories/Processor.v
theories/Api.v
theories/History.v
theories/Conformance.v
theories/EndToEnd.v
theories/ProcessorTests.v
theories/Tactics.v
theories/SqrtFacts.v
theories/DfsFacts.v
theories/FixedFacts.v
theories/Props_Fixed.v
theories/Spec.v
theories/CurveFacts.v
theories/LinearFacts.v
theories/SwapFacts.v
theories/CurveProps.v
theories/Props_Curves.v
theories/LinearExact.v
theories/LinearProps.v
theories/LinearRound.v
theories/LinearHistory.v
theories/LinearBacked.v
theories/Props_Linear.v
theories/CodecFacts.v
theories/Props_Codec.v
theories/LedgerSpec.v
theories/TokenFacts.v
theories/ProcFacts.v
theories/AmountFacts.v
theories/EffectFacts.v
theories/TradeFacts.v
theories/CreateFacts.v
theories/PermFacts.v
theories/LedgerExamples.v
theories/Props_Instructions.v
theories/HistoryFacts.v
theories/LiquidityFacts.v
theories/HistoryExamples.v
theories/Props_History.v
theories/CallSpec.v
theories/CallFacts.v
theories/ExactFacts.v
theories/Props_Exact.v
theories/QuoteSpec.v
theories/QuoteFacts.v
theories/RootFacts.v
theories/StableFacts.v
theories/QuoteCurves.v
theories/Props_Quotes.v
theories/Sha256.v
theories/Entry.v
theories/WireSpec.v
theories/EntryFacts.v
theories/Props_Entry.v
theories/TraceSpec.v
theories/VaultFacts.v
theories/LedgerLinear.v
theories/LedgerPrice.v
theories/LimitSpec.v
theories/LimitFacts.v
theories/Props_Ledger.v
theories/ErrorSpec.v
theories/ErrorCodes.v
theories/ErrorFacts.v
theories/ErrorProps.v
theories/ErrorCreate.v
theories/Props_Errors.v
theories/CoverFacts.v
theories/CoverWitness.v
theories/SplitFacts.v
theories/Props_Trades.v
theories/SplFacts.v
theories/Props_Numbers.v
theories/LocalSpec.v
theories/LocalFacts.v
theories/Props_Local.v
theories/RedeemFacts.v
theories/Props_Redeem.v
theories/LiveSpec.v
theories/LiveFacts.v
theories/LiveWithdraw.v
theories/LiveDeposit.v
theories/LiveSingle.v
theories/LiveExamples.v
theories/Props_Live.v
theories/RoundSpec.v
theories/BackFacts.v
theories/BackLedger.v
theories/Props_Rounded.v
theories/Base58.v
theories/Client.v
theories/ClientSpec.v
theories/ClientFacts.v
theories/ClientWitness.v
theories/Props_Client.v
theories/ErrorText.v
theories/ErrorTextFacts.v
theories/Props_Texts.v
theories/RandomTests.v
theories/Simulation.v
theories/TestSpec.v
theories/TestFacts.v
theories/TestProduct.v
theories/TestLinear.v
theories/TestStable.v
theories/Props_Tests.v
theories/HostSpec.v
theories/HostFacts.v
theories/Props_Host.v
theories/RequestSpec.v
theories/RequestFacts.v
theories/Props_Requests.v
theories/TotalSpec.v
theories/TotalFacts.v
theories/Props_Totals.v
theories/ExitFacts.v
theories/Props_Exits.v
theories/TripSpec.v
theories/TripFacts.v
theories/Props_Trips.v
theories/OfferFacts.v
theories/Props_Offers.v
theories/ProductionFacts.v
theories/Props_Production.v
theories/GainFacts.v
theories/Props_Gain.v
theories/DriftSpec.v
theories/DriftFacts.v
theories/FreeFacts.v
theories/DriftLedger.v
theories/Props_Drift.v
theories/NextSpec.v
theories/NextFacts.v
theories/Props_Next.v
theories/LoopSpec.v
theories/LoopFacts.v
theories/Props_Loop.v
theories/CHeader.v
theories/CHeaderFacts.v
theories/Props_Header.v
theories/SandwichFacts.v
theories/Props_Sandwich.v
theories/TripGifts.v
theories/LockSpec.v
theories/LockFacts.v
theories/LockLedger.v
theories/Props_Lock.v
theories/Idl.v
theories/IdlSpec.v
theories/IdlFacts.v
theories/IdlExact.v
theories/IdlWitness.v
theories/Props_Idl.v
theories/RedeemAll.v
theories/Props_RedeemAll.v
theories/LinearFees.v
theories/Props_LinearFees.v
theories/LedgerTrips.v
theories/Props_LedgerTrips.v
theories/TestConversions.v
theories/TestDeposits.v
theories/TestSale.v
theories/Fuzz.v
theories/FuzzSpec.v
theories/FuzzState.v
theories/FuzzFacts.v
theories/FuzzRun.v
theories/FuzzEnd.v
theories/FuzzMain.v
theories/FuzzValue.v
theories/FuzzMoves.v
theories/FuzzWorth.v
theories/FuzzFunds.v
theories/FuzzMeans.v
theories/Props_Fuzz.v
theories/RoundTrip.v
theories/DrainFacts.v
theories/Props_Drain.v
theories/BlockSpec.v
theories/BlockFacts.v
theories/Props_Block.v
theories/StableTest.v
theories/CubicSpec.v
theories/CubicFacts.v
theories/Props_Cubic.v
theories/GiftSpec.v
theories/GiftFacts.v
theories/Props_Gift.v
theories/LaterFacts.v
theories/Props_Later.v
theories/OfferLedger.v
theories/Props_MoreSale.v
theories/SmallSale.v
theories/NextBlur.v
theories/SamePrice.v
theories/Props_SamePrice.v
theories/ClientLive.v
theories/Props_ClientLive.v
