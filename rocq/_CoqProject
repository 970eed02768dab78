-Q theories Verif
theories/GoStr.v
theories/Kind.v
theories/Node.v
theories/SpecNode.v
theories/NodeProofs.v
theories/NodeInv.v
theories/NodeChain.v
theories/NodeOps.v
theories/NodeOps2.v
theories/NodeAcyc.v
theories/NodeIter.v
theories/NodeCopy.v
theories/NodeNew.v
theories/SpecHist.v
theories/NodeHist.v
theories/NodeFinal.v
theories/P_Node.v
theories/Extract.v
theories/Reset.v
theories/Scope.v
theories/Trie.v
theories/SpecPure.v
theories/PureProofs.v
theories/TrieProofs.v
theories/SpecUtf.v
theories/UtfProofs.v
theories/P_Pure.v
theories/SpecLex.v
theories/LexSpecProofs.v
theories/ExtractHeap.v
theories/LexRun.v
theories/P_Lex.v
theories/SpecScope.v
theories/SplitProofs.v
theories/ResetWp.v
theories/ResetRun.v
theories/ResetTop.v
theories/ResetSpec.v
theories/P_Scope.v
theories/HeaderProofs.v
theories/PrefixProofs.v
theories/SpecText.v
theories/TextProofs.v
theories/TypeText.v
theories/Ast.v
theories/SpecAst.v
theories/P_Ast.v
theories/P_Get.v
theories/P_Text.v
theories/SpecKinds.v
theories/KindProofs.v
theories/KindCheck.v
theories/P_Kinds.v
theories/TypeKinds.v
theories/TypeCheck.v
theories/P_TypeKinds.v
theories/P_More.v
theories/Local.v
theories/LocalCanon.v
theories/SpecLocal.v
theories/LocalLex.v
theories/LocalProofs.v
theories/P_Local.v
theories/SpecIter.v
theories/P_Iter.v
theories/P_Lines.v
theories/ExtractCount.v
theories/SpecConc.v
theories/Conc.v
theories/P_Conc.v
theories/SpecEdit.v
theories/P_Edit.v
theories/SpecBoard.v
theories/Board.v
theories/P_Board.v
theories/Tool.v
theories/SpecTool.v
theories/P_Tool.v
theories/SpecRename.v
theories/P_Rename.v
theories/Print.v
theories/SpecPrint.v
theories/P_Print.v
theories/Assert.v
theories/SpecAssert.v
theories/P_Assert.v
theories/SpecMerge.v
theories/P_Merge.v
theories/SpecOpaque.v
theories/Opaque.v
theories/P_Opaque.v
theories/P_Nil.v
theories/SpecSpell.v
theories/P_Spell.v
theories/SpecGo.v
theories/GoProofs.v
theories/GoCalm.v
theories/GoLayout.v
theories/GoKinds.v
theories/GoFunc.v
theories/GoType.v
theories/GoBridge.v
theories/GoGet.v
theories/GoCheck.v
theories/P_Go.v
theories/SpecLooks.v
theories/P_Looks.v
theories/Iface.v
theories/SpecIface.v
theories/P_Iface.v
theories/Unrepeat.v
theories/SpecUnrepeat.v
theories/P_Unrepeat.v
theories/RepoFiles.v
theories/RepoTests.v
theories/P_Head.v
theories/ModelTests.v
