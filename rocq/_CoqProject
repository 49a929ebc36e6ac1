-Q theories Verif
theories/Base.v
theories/Sha256.v
theories/Ripemd160.v
theories/PySlice.v
theories/PySlice_Proofs.v
theories/Bits_Model.v
theories/Bits_Spec.v
theories/Bits_Proofs.v
theories/Bits_Props.v
theories/BitsOrder_Spec.v
theories/BitsOrder_Proofs.v
theories/BitsOrder_Props.v
theories/Serialize_Model.v
theories/Serialize_Spec.v
theories/Serialize_Proofs.v
theories/Serialize_Props.v
theories/Tx_Model.v
theories/Tx_Spec.v
theories/Tx_Proofs.v
theories/Script_Model.v
theories/Script_Spec.v
theories/Script_Proofs.v
theories/Script_Props.v
theories/Tx_Props.v
theories/Proof_Model.v
theories/Proof_Spec.v
theories/Proof_Proofs.v
theories/ProofHash_Proofs.v
theories/ProofView_Proofs.v
theories/ProofReplay_Proofs.v
theories/ProofReveal_Proofs.v
theories/ProofVariant_Proofs.v
theories/Cache_Model.v
theories/Construct_Spec.v
theories/Construct_Proofs.v
theories/Proof_Examples.v
theories/ProofMain_Proofs.v
theories/Proof_Props.v
theories/Mmr_Model.v
theories/Mmr_Spec.v
theories/Mmr_Proofs.v
theories/MmrSlice_Proofs.v
theories/Tree_Examples.v
theories/Mmr_Props.v
theories/Merbinner_Model.v
theories/Merbinner_Spec.v
theories/Merbinner_Proofs.v
theories/MerbinnerHash_Proofs.v
theories/MerbinnerSubset_Proofs.v
theories/MerbinnerBits_Proofs.v
theories/Merbinner_Examples.v
theories/Merbinner_Props.v
theories/Hex_Model.v
theories/Chain_Model.v
theories/Chain_Spec.v
theories/ProofArrive_Proofs.v
theories/Chain_Proofs.v
theories/ChainPipe_Proofs.v
theories/ChainReplay_Proofs.v
theories/Chain_Examples.v
theories/Chain_Props.v
theories/Gumap_Model.v
theories/Gumap_Spec.v
theories/Gumap_Proofs.v
theories/Gumap_Examples.v
theories/Gumap_Props.v
theories/Block_Model.v
theories/Block_Spec.v
theories/Block_Proofs.v
theories/Block_Props.v
theories/BlockTree_Spec.v
theories/BlockTree_Proofs.v
theories/BlockTree_Props.v
theories/Base58_Model.v
theories/Base58_Spec.v
theories/Base58_Proofs.v
theories/Base58_Props.v
theories/SigHash_Model.v
theories/SigHash_Spec.v
theories/SigHash_Proofs.v
theories/SigHash_Props.v
theories/Money_Model.v
theories/Money_Spec.v
theories/Money_Proofs.v
theories/Money_Props.v
theories/Grammar_Spec.v
theories/Grammar_Proofs.v
theories/Grammar_Props.v
theories/Sha1.v
theories/ScriptEval_Model.v
theories/ScriptEval_Spec.v
theories/ScriptEval_Proofs.v
theories/ScriptEffect_Proofs.v
theories/ScriptSig_Proofs.v
theories/ScriptRun_Proofs.v
theories/ScriptVerify_Spec.v
theories/ScriptVerify_Proofs.v
theories/ScriptRead_Spec.v
theories/ScriptRead_Proofs.v
theories/ScriptRead_Props.v
theories/ScriptErr_Proofs.v
theories/ScriptUse_Proofs.v
theories/ScriptEval_Props.v
theories/Wire_Proofs.v
theories/Bloom_Model.v
theories/Bloom_Spec.v
theories/Bloom_Proofs.v
theories/Bloom_Props.v
theories/Net_Model.v
theories/Net_Spec.v
theories/Net_Proofs.v
theories/NetFrame_Proofs.v
theories/NetMain_Proofs.v
theories/NetErr_Proofs.v
theories/Net_Props.v
theories/Heap_Model.v
theories/Heap_Spec.v
theories/Heap_Inv.v
theories/Heap_Step.v
theories/Heap_Make.v
theories/Heap_Ser.v
theories/Heap_Run.v
theories/Heap_Frame.v
theories/Heap_Main.v
theories/Heap_Replay.v
theories/Heap_Use.v
theories/Heap_Examples.v
theories/Heap_Props.v
theories/Rpc_Model.v
theories/Rpc_Spec.v
theories/Rpc_Proofs.v
theories/RpcAmount_Proofs.v
theories/RpcUse_Proofs.v
theories/RpcMethods_Proofs.v
theories/Rpc_Props.v
theories/RpcBatch_Model.v
theories/RpcBatch_Spec.v
theories/RpcBatch_Proofs.v
theories/RpcBatch_Props.v
theories/Conf_Model.v
theories/Conf_Spec.v
theories/Conf_Proofs.v
theories/ConfUse_Proofs.v
theories/Conf_Props.v
theories/SusTool_Model.v
theories/SusTool_Spec.v
theories/SusTool_Proofs.v
theories/SusToolUse_Proofs.v
theories/SusTool_Props.v
theories/Key_Model.v
theories/Key_Spec.v
theories/Key_Proofs.v
theories/KeyUse_Proofs.v
theories/Key_Examples.v
theories/Key_Props.v
theories/Prog_Model.v
theories/Prog_Spec.v
theories/Prog_Proofs.v
theories/Prog_Props.v
theories/Repr_Model.v
theories/PyText_Spec.v
theories/PyText_Proofs.v
theories/Repr_Spec.v
theories/PyFloat_Proofs.v
theories/Repr_Proofs.v
theories/ReprTx_Proofs.v
theories/ReprBad_Proofs.v
theories/ReprScript_Proofs.v
theories/ReprMore_Proofs.v
theories/Repr_Props.v
theories/Difficulty_Model.v
theories/Difficulty_Spec.v
theories/Difficulty_Proofs.v
theories/Difficulty_Props.v
theories/MsgRepr_Model.v
theories/MsgRepr_Spec.v
theories/MsgRepr_Proofs.v
theories/MsgRepr_Props.v
theories/MmrRepr_Model.v
theories/MmrRepr_Spec.v
theories/MmrRepr_Proofs.v
theories/MmrRepr_Props.v
theories/TxObj_Model.v
theories/TxObj_Spec.v
theories/TxObj_Proofs.v
theories/TxObjSig_Proofs.v
theories/TxObjUse_Proofs.v
theories/TxObjMake_Proofs.v
theories/TxObj_Examples.v
theories/TxObj_Props.v
theories/Params_Model.v
theories/Params_Spec.v
theories/Params_Proofs.v
theories/Params_Props.v
theories/GumapLedger_Spec.v
theories/GumapLedger_Proofs.v
theories/GumapLedger_Props.v
theories/Fund_Spec.v
theories/Fund_Proofs.v
theories/Fund_Props.v
theories/Dict_Model.v
theories/Dict_Spec.v
theories/Dict_Proofs.v
theories/Dict_Props.v
theories/PDict_Model.v
theories/PDict_Spec.v
theories/PDict_Proofs.v
theories/PDict_Props.v
theories/MmrView_Model.v
theories/MmrView_Proofs.v
theories/MmrCost_Model.v
theories/MmrCost_Proofs.v
theories/MmrView_Props.v
theories/OutArg_Spec.v
theories/OutArg_Proofs.v
theories/OutArg_Props.v
theories/MbtView_Model.v
theories/MbtView_Proofs.v
theories/MbtView_Props.v
theories/KeyEx_Model.v
theories/KeyEx_Spec.v
theories/KeyEx_Props.v
theories/MbtCost_Model.v
theories/MbtCost_Proofs.v
theories/MbtCost_Props.v
theories/CloseValid_Spec.v
theories/CloseValid_Proofs.v
theories/CloseValid_Props.v
theories/ReadErr_Spec.v
theories/ReadErr_Model.v
theories/ReadErr_Proofs.v
theories/ReadErr_Props.v
theories/MbtChange_Spec.v
theories/MbtChange_Proofs.v
theories/MbtChange_Props.v
theories/MmrChange_Spec.v
theories/MmrChange_Proofs.v
theories/MmrChange_Props.v
theories/MbtSub_Spec.v
theories/MbtSub_Proofs.v
theories/MbtSub_Props.v
theories/Truth_Spec.v
theories/Truth_Proofs.v
theories/Truth2_Proofs.v
theories/Truth_Props.v
theories/MsgNew_Model.v
theories/MsgNew_Spec.v
theories/MsgNew_Proofs.v
theories/MsgNew_Props.v
theories/SusLines_Model.v
theories/SusLines_Spec.v
theories/SusLines_Proofs.v
theories/SusLines_Props.v
theories/Recipe_Spec.v
theories/Recipe_Proofs.v
theories/Recipe_Props.v
theories/Declare_Model.v
theories/Declare_Spec.v
theories/Declare_Proofs.v
theories/DeclareUse_Proofs.v
theories/Declare_Props.v
theories/TreeRecipe_Spec.v
theories/TreeRecipe_Proofs.v
theories/TreeRecipe_Props.v
theories/MapRecipe_Spec.v
theories/MapRecipe_Proofs.v
theories/MapRecipe_Props.v
theories/ShortStr_Model.v
theories/ShortStr_Spec.v
theories/ShortStr_Proofs.v
theories/ShortStr_Props.v
theories/UAlert_Model.v
theories/UAlert_Proofs.v
theories/UAlert_Props.v
theories/Mpi_Model.v
theories/Mpi_Spec.v
theories/Mpi_Proofs.v
theories/Mpi_Props.v
theories/Final_Model.v
theories/Final_Proofs.v
theories/Final_Props.v
