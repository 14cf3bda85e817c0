-Q theories Verif
theories/Base/Dec.v
theories/Base/Hex.v
theories/Base/Json.v
theories/Base/Layers.v
theories/Base/Prelude.v
theories/Model/AccLock.v
theories/Model/AppWire.v
theories/Model/Bank.v
theories/Model/BankDelegate.v
theories/Model/BankQuery.v
theories/Model/BlockHash.v
theories/Model/BlockRpc.v
theories/Model/BringUp.v
theories/Model/CacheStore.v
theories/Model/CallTree.v
theories/Model/CreateRun.v
theories/Model/Deploy.v
theories/Model/EthDeliver.v
theories/Model/EthLog.v
theories/Model/EthTx.v
theories/Model/EvmQuery.v
theories/Model/FeeHistory.v
theories/Model/Fees.v
theories/Model/FilterLogs.v
theories/Model/Filters.v
theories/Model/Genesis.v
theories/Model/HasSupply.v
theories/Model/IbcHooks.v
theories/Model/IndexNode.v
theories/Model/Indexer.v
theories/Model/MemoJson.v
theories/Model/MultiMsg.v
theories/Model/Nft.v
theories/Model/NftInfo.v
theories/Model/Params.v
theories/Model/Paths.v
theories/Model/Precompile.v
theories/Model/Query.v
theories/Model/QueryCosmos.v
theories/Model/RawTx.v
theories/Model/RevertText.v
theories/Model/Rpc.v
theories/Model/RunTx.v
theories/Model/Sequence.v
theories/Model/Servers.v
theories/Model/SigVerify.v
theories/Model/Snapshots.v
theories/Model/SolStrings.v
theories/Model/StateDB.v
theories/Model/StoreGas.v
theories/Model/StoredHeader.v
theories/Model/StoredTx.v
theories/Model/Subs.v
theories/Model/Surround.v
theories/Model/Token.v
theories/Model/TxHashes.v
theories/Model/TxPool.v
theories/Model/TxQueue.v
theories/Model/Wrapper.v
theories/Proofs/BankMore.v
theories/Proofs/BankP.v
theories/Proofs/BytesP.v
theories/Proofs/CallTreeAny.v
theories/Proofs/CallTreeP.v
theories/Proofs/EthDeliverP.v
theories/Proofs/EthTxP.v
theories/Proofs/FeeHistoryP.v
theories/Proofs/FiltersP.v
theories/Proofs/HexP.v
theories/Proofs/IndexerP.v
theories/Proofs/JournalP.v
theories/Proofs/LayersP.v
theories/Proofs/NftP.v
theories/Proofs/PathsP.v
theories/Proofs/PrecompileP.v
theories/Proofs/RpcP.v
theories/Proofs/SequenceP.v
theories/Proofs/SigP.v
theories/Proofs/SnapshotsP.v
theories/Proofs/StateDBHist.v
theories/Proofs/StateDBMore.v
theories/Proofs/StateDBP.v
theories/Proofs/StoreGasP.v
theories/Proofs/SubsP.v
theories/Proofs/TokenMore.v
theories/Proofs/TokenP.v
theories/Proofs/TxQueueP.v
theories/Proofs/WrapperInv.v
theories/Proofs/WrapperMore.v
theories/Proofs/WrapperP.v
theories/Props/AccountProps.v
theories/Props/AppWireProps.v
theories/Props/BankDelegateProps.v
theories/Props/BankProps.v
theories/Props/BankQueryProps.v
theories/Props/BlockRpcProps.v
theories/Props/BringUpProps.v
theories/Props/BundleHistoryProps.v
theories/Props/CallTreeProps.v
theories/Props/CosmosSignedProps.v
theories/Props/CreateRunProps.v
theories/Props/EthDeliverProps.v
theories/Props/EthTxProps.v
theories/Props/EvmQueryProps.v
theories/Props/FeeHistoryProps.v
theories/Props/FeesProps.v
theories/Props/FilterLogsProps.v
theories/Props/FilterProps.v
theories/Props/HasSupplyProps.v
theories/Props/IbcHooksProps.v
theories/Props/IndexNodeProps.v
theories/Props/IndexerProps.v
theories/Props/LockProps.v
theories/Props/LogProps.v
theories/Props/MemoJsonProps.v
theories/Props/MixedHistoryProps.v
theories/Props/ModuleProps.v
theories/Props/MultiMsgProps.v
theories/Props/NftInfoProps.v
theories/Props/NftProps.v
theories/Props/PrecompileMore.v
theories/Props/PrecompileProps.v
theories/Props/QueryCosmosProps.v
theories/Props/QueryProps.v
theories/Props/QueueProps.v
theories/Props/RawTxProps.v
theories/Props/RevertTextProps.v
theories/Props/RpcProps.v
theories/Props/RunTxProps.v
theories/Props/SequenceProps.v
theories/Props/ServersProps.v
theories/Props/SigProps.v
theories/Props/SolStringsProps.v
theories/Props/StateDBProps.v
theories/Props/StoreGasProps.v
theories/Props/StoredHeaderProps.v
theories/Props/StoredTxProps.v
theories/Props/SubsProps.v
theories/Props/SurroundProps.v
theories/Props/TokenProps.v
theories/Props/TxHashProps.v
theories/Props/TxPoolProps.v
theories/Props/WrapperProps.v
theories/Spec/AccountSpec.v
theories/Spec/BankSpec.v
theories/Spec/CacheStoreSpec.v
theories/Spec/CallTreeSpec.v
theories/Spec/Frames.v
theories/Spec/IndexerSpec.v
theories/Spec/MultiSpec.v
theories/Spec/NftSpec.v
theories/Spec/RevertSpec.v
theories/Spec/SequenceSpec.v
theories/Spec/SigSpec.v
theories/Spec/StateDBSpec.v
theories/Spec/StoreGasSpec.v
theories/Spec/TokenSpec.v
theories/Spec/WalletSpec.v
theories/Spec/WrapperSpec.v
