-Q theories Verif
theories/Base.v
theories/BaseFacts.v
theories/Encoders.v
theories/Spec_Encoders.v
theories/EncodersFacts.v
theories/EncodersFacts2.v
theories/EncodersFacts3.v
theories/Prop_Encoders.v
theories/Merkle.v
theories/Spec_Merkle.v
theories/MerkleFacts.v
theories/Prop_Merkle.v
theories/Currency.v
theories/CurrencyFacts.v
theories/Spec_Currency.v
theories/CurrencyFacts2.v
theories/Prop_Currency.v
theories/Primitive.v
theories/Types.v
theories/Conditions.v
theories/Spec_Types.v
theories/TypesFacts.v
theories/TypesFacts2.v
theories/ConditionFacts.v
theories/ConditionFacts2.v
theories/Prop_Types.v
theories/Fulfillments.v
theories/Spec_Fulfil.v
theories/FulfilFacts.v
theories/FulfilFacts2.v
theories/Prop_Fulfil.v
theories/ThreeBotTypes.v
theories/Txn.v
theories/Spec_Txn.v
theories/TxnFacts.v
theories/TxnFacts2.v
theories/TxnFacts3.v
theories/TxnFacts4.v
theories/TxnFacts5.v
theories/TxnFacts6.v
theories/TxnFacts7.v
theories/Prop_Txn.v
theories/TxnJson.v
theories/TxnSign.v
theories/Spec_Sign.v
theories/SignFacts.v
theories/SignFacts2.v
theories/SignFacts3.v
theories/SignFacts4.v
theories/Prop_Sign.v
theories/Wallet.v
theories/Spec_Wallet.v
theories/WalletFacts.v
theories/WalletFacts2.v
theories/FundFacts.v
theories/FundFacts2.v
theories/FundFacts3.v
theories/BuildFacts.v
theories/Prop_Wallet.v
theories/AtomicSwap.v
theories/Spec_Swap.v
theories/SwapFacts.v
theories/SwapFacts2.v
theories/Prop_Swap.v
theories/Spec_ThreeBot.v
theories/ThreeBotFacts.v
theories/Ops.v
theories/Spec_Ops.v
theories/OpsFacts.v
theories/ThreeBotFacts2.v
theories/ThreeBotFacts3.v
theories/OpsFacts2.v
theories/OpsFacts3.v
theories/OpsFacts4.v
theories/Prop_ThreeBot.v
theories/Prop_Ops.v
theories/Spec_Json.v
theories/JsonFacts.v
theories/JsonFacts2.v
theories/JsonFacts3.v
theories/JsonFacts4.v
theories/Prop_Json.v
theories/Spec_ERC20.v
theories/Prop_ERC20.v
theories/Explorer.v
theories/Spec_Explorer.v
theories/ExplorerFacts.v
theories/ExplorerFacts2.v
theories/ExplorerFacts3.v
theories/ExplorerFacts4.v
theories/Prop_Explorer.v
theories/KeyScan.v
theories/Spec_Keys.v
theories/KeyFacts.v
theories/Prop_Keys.v
theories/Dates.v
theories/Spec_Dates.v
theories/DateFacts.v
theories/Prop_Dates.v
theories/WalletLoad.v
theories/Spec_Load.v
theories/LoadFacts.v
theories/Prop_Load.v
theories/Lookups.v
theories/Spec_Lookup.v
theories/LookupFacts.v
theories/Prop_Lookup.v
theories/Spec_Parse.v
theories/CondParseFacts.v
theories/Prop_Parse.v
theories/Erc20Wallet.v
theories/Prop_Erc20Wallet.v
theories/Submit.v
theories/Spec_Submit.v
theories/SubmitFacts.v
theories/Prop_Submit.v
theories/Front.v
theories/Spec_Front.v
theories/Prop_Front.v
theories/Prop_Txn2.v
theories/Session.v
theories/Spec_Session.v
theories/SessionFacts.v
theories/Prop_Session.v
theories/Strptime.v
theories/StrptimeFacts.v
theories/DateFacts2.v
theories/StrptimeFacts2.v
theories/Prop_Dates2.v
theories/Spec_Fits.v
theories/SigTotal.v
theories/Spec_Afford.v
theories/AffordFacts.v
theories/AffordFacts2.v
theories/Prop_Afford.v
theories/Spec_Afford2.v
theories/AffordFacts3.v
theories/Prop_Afford2.v
theories/Prop_SwapTwo.v
theories/Prop_SignWorks.v
theories/Spec_Together.v
theories/TogetherFacts.v
theories/Prop_Together.v
theories/Spec_Round.v
theories/RoundFacts.v
theories/Prop_Round.v
theories/Merging.v
theories/Spec_Merge.v
theories/Prop_Merge.v
theories/Prop_IpNumber.v
theories/Spec_ParseTxn.v
theories/ParseTxnFacts.v
theories/Prop_ParseTxn.v
theories/Spec_Forms.v
theories/FormFacts.v
theories/Prop_Forms.v
theories/Prop_Compare.v
theories/HexFacts.v
theories/Prop_ERC20Valid.v
theories/Spec_Heights.v
theories/Prop_Heights.v
theories/Spec_Amounts.v
theories/AmountFacts.v
theories/Prop_Amounts.v
theories/Prop_Submits.v
theories/Spec_Texts.v
theories/Base64Facts.v
theories/Prop_Texts.v
theories/Spec_Wire.v
theories/WireFacts.v
theories/WireFacts2.v
theories/Prop_Wire.v
theories/TxnBuild.v
theories/Spec_Build.v
theories/BuildByHand.v
theories/BuildByHand2.v
theories/Prop_Build.v
theories/Network.v
theories/Spec_Network.v
theories/Prop_Network.v
theories/Spec_Show.v
theories/ShowFacts.v
theories/Show.v
theories/Spec_Contract.v
theories/Prop_Contract.v
theories/Spec_Balance.v
theories/Prop_Balance.v
theories/Spec_Print.v
theories/PrintFacts.v
theories/Prop_Print.v
theories/Spec_Ledger.v
theories/LedgerFacts.v
theories/Prop_Ledger.v
theories/Recover.v
theories/Spec_Recover.v
theories/RecoverFacts.v
theories/Prop_Recover.v
theories/Spec_Shared.v
theories/SharedFacts.v
theories/Prop_Shared.v
theories/Spec_Mint.v
theories/Prop_Mint.v
theories/Equal.v
theories/Prop_Equal.v
theories/SwapLookup.v
theories/Spec_Trade.v
theories/TradeFacts.v
theories/Prop_Trade.v
theories/SharedFundFacts.v
theories/Spec_Jointly.v
theories/JointlyFacts.v
theories/Prop_Jointly.v
theories/Spec_Minters.v
theories/MintersFacts.v
theories/Prop_Minters.v
theories/Http.v
theories/Spec_Http.v
theories/HttpFacts.v
theories/Prop_Http.v
