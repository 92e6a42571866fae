-Q theories Verif
theories/Base.v
theories/Ledger.v
theories/LedgerProofs.v
theories/DexModel.v
theories/DexProofs.v
theories/DexInv.v
theories/DexClaims.v
theories/DexAddr.v
theories/DexProps.v
theories/UtilsModel.v
theories/UtilsProofs.v
theories/UtilsProps.v
theories/HoldsModel.v
theories/HoldsProofs.v
theories/HoldsProps.v
theories/Erc20Model.v
theories/Erc20Proofs.v
theories/Erc20Props.v
theories/NftModel.v
theories/NftProofs.v
theories/NftProps.v
theories/SftModel.v
theories/SftProofs.v
theories/SftProps.v
theories/MarketModel.v
theories/MarketToks.v
theories/MarketMoney.v
theories/MarketProofs.v
theories/MarketTight.v
theories/MarketProps.v
theories/CrowdModel.v
theories/CrowdProofs.v
theories/CrowdInv.v
theories/CrowdPay.v
theories/CrowdLog.v
theories/CrowdVouch.v
theories/CrowdProps.v
theories/VortexModel.v
theories/VortexProofs.v
theories/VortexInv.v
theories/VortexMoney.v
theories/VortexLive.v
theories/VortexProps.v
theories/EthyModel.v
theories/EthyProofs.v
theories/EthyCore.v
theories/EthyInv.v
theories/EthyLive.v
theories/EthyProps.v
theories/EthyQueue.v
theories/EthyQProofs.v
theories/EthyQProps.v
theories/EthyCProps.v
theories/XrplModel.v
theories/XrplTickets.v
theories/XrplDeposits.v
theories/XrplWithdraw.v
theories/XrplWProps.v
theories/PegModel.v
theories/PegBacking.v
theories/PegSched.v
theories/PegSteps.v
theories/PegProps.v
theories/PegLive.v
theories/FpassModel.v
theories/FpassProofs.v
theories/FpassProps.v
theories/WitnessModel.v
theories/WitnessProofs.v
theories/WitnessWorker.v
theories/WitnessProps.v
theories/MaintModel.v
theories/MaintProofs.v
theories/MaintProps.v
theories/Xls20Model.v
theories/Xls20Proofs.v
theories/Xls20Props.v
theories/DoughnutModel.v
theories/DoughnutProofs.v
theories/DoughnutProps.v
theories/NfiModel.v
theories/NfiProps.v
theories/NftPegModel.v
theories/NftPegProofs.v
theories/NftPegProps.v
theories/DexLive.v
theories/FeeModel.v
theories/FeeProofs.v
theories/FeeProps.v
theories/DexPrice.v
theories/DexPriceProps.v
theories/MarketTerms.v
theories/MarketTermsProps.v
theories/TokenAdmin.v
theories/PegTight.v
theories/CrowdLife.v
theories/NotaryModel.v
theories/NotaryProofs.v
theories/NotaryProps.v
theories/XrplTxModel.v
theories/XrplTxProofs.v
theories/XrplTxProps.v
theories/AbiModel.v
theories/AbiProofs.v
theories/AbiProps.v
theories/Erc1155Model.v
theories/Erc1155Proofs.v
theories/Erc1155Props.v
theories/Erc721Model.v
theories/Erc721Proofs.v
theories/Erc721Props.v
theories/Erc721Admin.v
theories/Erc1155Admin.v
theories/DexPreModel.v
theories/DexPreProofs.v
theories/DexPreProps.v
theories/MarketPreModel.v
theories/MarketPreProofs.v
theories/MarketPreProps.v
theories/FpassFundModel.v
theories/FpassFundProofs.v
theories/FpassFundProps.v
theories/FpassEvmModel.v
theories/FpassEvmProofs.v
theories/FpassEvmProps.v
theories/PegPreModel.v
theories/PegPreProofs.v
theories/PegPreProps.v
theories/CreateModel.v
theories/CreateProofs.v
theories/CreateProps.v
theories/MigrationModel.v
theories/MigrationProofs.v
theories/MigrationProps.v
theories/GossipModel.v
theories/GossipProofs.v
theories/GossipProps.v
theories/NfiMigModel.v
theories/NfiMigProofs.v
theories/NfiMigProps.v
theories/ImbModel.v
theories/ImbProofs.v
theories/ImbProps.v
theories/EchoModel.v
theories/EchoProps.v
theories/RotModel.v
theories/RotProofs.v
theories/RotProps.v
theories/FeeCtlModel.v
theories/FeeCtlProps.v
theories/DoorModel.v
theories/DoorProofs.v
theories/DoorProps.v
theories/SigModel.v
theories/SigProps.v
theories/RpcModel.v
theories/RpcProps.v
theories/PreSetModel.v
theories/PreSetProofs.v
theories/PreSetProps.v
theories/EvmTxModel.v
theories/EvmTxProofs.v
theories/EvmTxProps.v
theories/RpcAmtModel.v
theories/RpcAmtProps.v
theories/GasModel.v
theories/GasProps.v
theories/EthCliModel.v
theories/EthCliProps.v
theories/FeePotModel.v
theories/FeePotProps.v
theories/FinalModel.v
theories/FinalProps.v
theories/ChalModel.v
theories/ChalProps.v
theories/CallQModel.v
theories/CallQProofs.v
theories/CallQProps.v
theories/NetModel.v
theories/NetProofs.v
theories/NetProps.v
