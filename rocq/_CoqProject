-Q theories Verif
theories/Machine.v
theories/Bytes.v
theories/Critbit.v
theories/EventQueue.v
theories/OrderBook.v
theories/Market.v
theories/Spec.v
theories/DataSpec.v
theories/MachineProofs.v
theories/TreeProofs.v
theories/SlabProofs.v
theories/SlabProofs2.v
theories/QueueProofs.v
theories/DataProps.v
theories/ExampleRuns.v
theories/PropsData.v
theories/IdProofs.v
theories/Engine.v
theories/BookProofs.v
theories/EngineProofs.v
theories/MarketProofs.v
theories/MarketFacts.v
theories/NewOrderProps.v
theories/NewOrderProps2.v
theories/SelfTradeProps.v
theories/RoomProps.v
theories/InstrProps.v
theories/HistoryProps.v
theories/LifeProps.v
theories/MarketReads.v
theories/PropsOrder.v
theories/PropsMarket.v
theories/PropsUtils.v
theories/Layout.v
theories/LayoutProofs.v
theories/Borsh.v
theories/BorshProofs.v
theories/Ledger.v
theories/PropsLayout.v
theories/TypedProps.v
theories/LedgerSpec.v
theories/LedgerProofs.v
theories/WorldProofs.v
theories/FollowProofs.v
theories/LedgerFacts.v
theories/LedgerFacts2.v
theories/LedgerExample.v
theories/PropsLedger.v
theories/JsClient.v
theories/ClientSpec.v
theories/EventProps.v
theories/JsProofs.v
theories/JsQueueProofs.v
theories/PropsClient.v
theories/CrankProofs.v
theories/MoreSpec.v
theories/MoreProofs.v
theories/StaleProofs.v
theories/Check.v
theories/CheckProofs.v
theories/WindProofs.v
theories/PropsMore.v
theories/ReadSpec.v
theories/Reads.v
theories/ReadProofs.v
theories/PropsReads.v
theories/OpaqueSpec.v
theories/OpaqueProofs.v
theories/PropsOpaque.v
theories/CompareSpec.v
theories/CompareProofs.v
theories/FundsProofs.v
theories/CommuteProofs.v
theories/PropsCompare.v
theories/JsBindings.v
theories/PropsBindings.v
theories/Wasm.v
theories/WasmSpec.v
theories/WasmProofs.v
theories/PropsWasm.v
theories/CustodySpec.v
theories/CustodyProofs.v
theories/PropsCustody.v
theories/Host.v
theories/PropsHost.v
theories/JsLoad.v
theories/PropsLoad.v
theories/PropsMass.v
theories/WasmTree.v
theories/WasmTreeSpec.v
theories/WasmTreeProofs.v
theories/PropsWasmTree.v
theories/PlaceSpec.v
theories/PlaceProofs.v
theories/PropsPlace.v
theories/ExchangeSpec.v
theories/ExchangeProofs.v
theories/PropsExchange.v
theories/RepoTests.v
theories/Errors.v
theories/FailSpec.v
theories/FailErrors.v
theories/FailProofs.v
theories/PropsFail.v
theories/ScheduleSpec.v
theories/ScheduleProofs.v
theories/PropsSchedule.v
theories/Access.v
theories/PropsAccess.v
theories/SplitSpec.v
theories/SplitProofs.v
theories/PropsSplit.v
theories/AloneSpec.v
theories/AloneProofs.v
theories/PropsAlone.v
theories/PreviewSpec.v
theories/PropsPreview.v
theories/NamesSpec.v
theories/NamesProofs.v
theories/PropsNames.v
theories/DelaySpec.v
theories/DelayProofs.v
theories/PropsDelay.v
theories/SizesSpec.v
theories/PropsSizes.v
theories/PiecesSpec.v
theories/PiecesProofs.v
theories/PropsPieces.v
theories/CheckSpec.v
theories/CheckSound.v
theories/PropsCheck.v
theories/BooksSpec.v
theories/BooksProofs.v
theories/PropsBooks.v
theories/Release.v
theories/ReleaseProofs.v
theories/ReleaseFacts.v
theories/ReleaseWorld.v
theories/PropsRelease.v
theories/Count.v
theories/CountProofs.v
theories/PropsWork.v
theories/PartsSpec.v
theories/PartsProofs.v
theories/PropsParts.v
theories/BestSpec.v
theories/BestProofs.v
theories/PropsBest.v
theories/StuckSpec.v
theories/StuckProofs.v
theories/PropsStuck.v
theories/LadderSpec.v
theories/LadderProofs.v
theories/PropsLadder.v
theories/ReachSpec.v
theories/ReachProofs.v
theories/PropsReach.v
theories/ProvideSpec.v
theories/ProvideProofs.v
theories/PropsProvide.v
theories/OfferSpec.v
theories/OfferProofs.v
theories/PropsOffer.v
theories/ShareProofs.v
theories/PropsShare.v
theories/TakeSpec.v
theories/TakeProofs.v
theories/PropsTake.v
theories/InterleaveSpec.v
theories/InterleaveProofs.v
theories/PropsInterleave.v
theories/WaitSpec.v
theories/WaitProofs.v
theories/PropsWait.v
theories/SellProofs.v
theories/FrontSpec.v
theories/FrontProofs.v
theories/StayProofs.v
theories/PropsFront.v
theories/MoveSpec.v
theories/MoveProofs.v
theories/PropsMove.v
theories/VolumeSpec.v
theories/VolumeProofs.v
theories/PropsVolume.v
theories/CatchSpec.v
theories/CatchProofs.v
theories/PropsCatch.v
