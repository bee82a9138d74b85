-Q theories Verif
theories/CSem.v
theories/Model_Utils.v
theories/Model_Base64.v
theories/Model_Containers.v
theories/Model_Json.v
theories/Model_Sort.v
theories/Model_Crypto.v
theories/Model_Crc.v
theories/Model_CrcVariants.v
theories/Lib.v
theories/Spec_Utils.v
theories/Proof_Utils.v
theories/Props_Utils.v
theories/Spec_Base64.v
theories/Proof_Base64.v
theories/Props_Base64.v
theories/Spec_Queue.v
theories/Drive_Queue.v
theories/Proof_Queue.v
theories/Props_Queue.v
theories/Spec_PriorityQueue.v
theories/Drive_PriorityQueue.v
theories/Proof_PriorityQueue.v
theories/Props_PriorityQueue.v
theories/Spec_Map.v
theories/Drive_Map.v
theories/Proof_Map.v
theories/Props_Map.v
theories/Spec_Scheduler.v
theories/Drive_Scheduler.v
theories/Proof_Scheduler.v
theories/Props_Scheduler.v
theories/Spec_Sort.v
theories/Proof_Sort.v
theories/Proof_SortInsert.v
theories/Proof_SortHeap.v
theories/Proof_SortEnd.v
theories/Proof_SortAll.v
theories/Proof_SortProps.v
theories/Props_Sort.v
theories/Spec_Cipher.v
theories/Proof_Cipher.v
theories/Props_Cipher.v
theories/Spec_ChaCha.v
theories/Proof_ChaCha.v
theories/Proof_ChaChaCrypt.v
theories/Props_ChaCha.v
theories/Spec_Crc.v
theories/Proof_Gf2.v
theories/Proof_Crc.v
theories/Proof_CrcTable.v
theories/Drive_Crc.v
theories/Proof_CrcAll.v
theories/Proof_CrcProps.v
theories/Proof_CrcEnd.v
theories/Props_Crc.v
theories/Spec_Json.v
theories/Drive_Json.v
theories/Proof_Json.v
theories/Proof_JsonFind.v
theories/Proof_JsonProps.v
theories/Props_Json.v
theories/Spec_CrcErr.v
theories/Proof_Order.v
theories/Proof_CrcErr.v
theories/Props_CrcErr.v
theories/Spec_Record.v
theories/Drive_Record.v
theories/Proof_Record.v
theories/Props_Record.v
theories/Spec_Pipeline.v
theories/Drive_Pipeline.v
theories/Proof_Base64Text.v
theories/Proof_Pipeline.v
theories/Props_Pipeline.v
theories/Spec_Base64Any.v
theories/Proof_Base64Any.v
theories/Spec_SortMore.v
theories/Proof_SortMore.v
theories/Model_SortState.v
theories/Proof_SortState.v
theories/Proof_SortErase.v
theories/Props_SortMore.v
theories/Test_Crc.v
theories/Test_Chacha.v
theories/Test_Repo.v
theories/Spec_HeapReads.v
theories/Proof_HeapReads.v
theories/Props_HeapReads.v
theories/Proof_Term.v
theories/Props_Term.v
theories/Proof_Limits.v
theories/Proof_Limits2.v
theories/Props_Limits.v
theories/CLang.v
theories/C_Utils.v
theories/C_Base64.v
theories/C_Containers.v
theories/C_Sort.v
theories/C_Crypto.v
theories/C_Crc.v
theories/C_CrcVariants.v
theories/C_Json.v
theories/Refine.v
theories/Refine_Utils.v
theories/Props_Text_Utils.v
theories/Refine_Crc.v
theories/Refine_CrcVariants.v
theories/Props_Text_Crc.v
theories/Props_Text_CrcVariants.v
theories/Refine_Base64.v
theories/Refine_Base64Dec.v
theories/Refine_Base64Place.v
theories/Props_Text_Base64.v
theories/Refine_Cipher.v
theories/Refine_Chacha.v
theories/Refine_ChachaBlock.v
theories/Refine_ChachaCrypt.v
theories/Props_Text_Crypto.v
theories/Drive_SortText.v
theories/Refine_Sort.v
theories/Refine_SortInsert.v
theories/Refine_SortHeapify.v
theories/Refine_SortHeap.v
theories/Refine_SortAgree.v
theories/Props_Text_Sort.v
theories/Refine_Json.v
theories/Refine_JsonFind.v
theories/Props_Text_Json.v
theories/Drive_ContText.v
theories/Refine_Queue.v
theories/Refine_PQ.v
theories/Refine_PQEnq.v
theories/Refine_Map.v
theories/Refine_MapInit.v
theories/Refine_MapOps.v
theories/Refine_Sched.v
theories/Props_Text_Queue.v
theories/Props_Text_PQ.v
theories/Props_Text_Map.v
theories/Props_Text_Sched.v
theories/Drive_TextRun.v
theories/Proof_TextQueue.v
theories/Proof_TextPQ.v
theories/Proof_TextMap.v
theories/Proof_TextSched.v
theories/Proof_TextSort.v
theories/Proof_TextBase64.v
theories/Props_Main_Cont.v
theories/Props_Main_Sort.v
theories/Props_Main_Base64.v
theories/Proof_TextCrypto.v
theories/Props_Main_Crypto.v
theories/Drive_CrcText.v
theories/Proof_TextCrc.v
theories/Props_Main_Crc.v
theories/Drive_JsonText.v
theories/Proof_TextJson.v
theories/Props_Main_Json.v
theories/Drive_UtilsText.v
theories/Proof_TextUtils.v
theories/Props_Main_Utils.v
theories/CFront.v
theories/CSystem.v
theories/Text_Headers.v
theories/Text_HeadersCrc.v
theories/Text_Utils.v
theories/Text_Containers.v
theories/Text_Sort.v
theories/Text_Crypto.v
theories/Text_Crc.v
theories/Text_Crc8.v
theories/Text_Crc16.v
theories/Text_Crc32.v
theories/Drive_Front.v
theories/Proof_Front.v
theories/Props_Front.v
theories/CLangOrder.v
theories/Proof_EvalOrder.v
theories/Props_EvalOrder.v
theories/Spec_Reach.v
theories/Proof_Fuel.v
theories/Proof_Reach.v
theories/Props_Interp.v
theories/Spec_Grammar.v
theories/Spec_GrammarUnit.v
theories/Proof_Grammar.v
theories/Proof_GrammarAll.v
theories/Proof_GrammarUnit.v
theories/Proof_GrammarUnitAll.v
theories/Proof_GrammarRepo.v
theories/Props_Grammar.v
theories/Spec_Layout.v
theories/Proof_Layout.v
theories/Proof_LayoutUse.v
theories/Props_Layout.v
theories/Spec_Lex.v
theories/Proof_Lex.v
theories/Spec_Prep.v
theories/Proof_Prep.v
theories/Proof_PrepRepo.v
theories/Props_Lex.v
theories/Props_Prep.v
theories/CSize32.v
theories/C_Size32.v
theories/Drive_Size32.v
theories/Refine32_Cipher.v
theories/Refine32_Json.v
theories/Refine32_JsonFind.v
theories/Refine32_Base64.v
theories/Refine32_Base64Dec.v
theories/Refine32_Map.v
theories/Refine32_Sort.v
theories/Proof_Size32.v
theories/Props_Size32.v
theories/CLeak.v
theories/Proof_Leak.v
theories/Proof_LeakSame.v
theories/Proof_LeakFuns.v
theories/Props_Leak.v
