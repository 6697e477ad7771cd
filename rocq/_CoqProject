-Q theories Verif
theories/Base.v
theories/MatchModel.v
theories/MatchSpec.v
theories/MatchProofs.v
theories/MatchCor.v
theories/PropsMatch.v
theories/UtilsModel.v
theories/UtilsSpec.v
theories/UtilsProofs.v
theories/TrieModel.v
theories/TrieSpec.v
theories/TrieProofs.v
theories/DataModel.v
theories/DataSpec.v
theories/DataProofs.v
theories/PropsUtils.v
theories/PropsTrie.v
theories/RoleModel.v
theories/RoleSpec.v
theories/RoleProofs.v
theories/RoleHas.v
theories/RootModel.v
theories/AuthModel.v
theories/AuthSpec.v
theories/AuthProofs.v
theories/RootSpec.v
theories/RootInv.v
theories/RoleOps.v
theories/RoleLock.v
theories/RoleCor.v
theories/PropsRole.v
theories/ImplicitProofs.v
theories/AuthTotal.v
theories/RootRows.v
theories/RootCor.v
theories/RootCor2.v
theories/RootCor3.v
theories/RegModel.v
theories/RegSpec.v
theories/RegProofs.v
theories/RootEx.v
theories/PropsRoot.v
theories/DagModel.v
theories/DagSpec.v
theories/DagProofs.v
theories/V2Model.v
theories/V2Spec.v
theories/V2Trav.v
theories/V2Auth.v
theories/V2Inv.v
theories/V2RemSpec.v
theories/V2Remove.v
theories/V2PropSpec.v
theories/V2Cor.v
theories/V2Hist.v
theories/V2Ex.v
theories/V2Final.v
theories/PropsV2.v
theories/PoolModel.v
theories/PoolSpec.v
theories/PoolProofs.v
theories/PoolInv.v
theories/PoolMore.v
theories/PoolCallSpec.v
theories/PoolCall.v
theories/PoolEx.v
theories/PropsPool.v
theories/V1Model.v
theories/V1Spec.v
theories/V1Code.v
theories/HeapGrow.v
theories/V1Inv.v
theories/V1Auth.v
theories/V1Dec.v
theories/V1Write.v
theories/V1Slice.v
theories/V1SliceProofs.v
theories/V1SliceHole.v
theories/V1Cor.v
theories/V1Setup.v
theories/V1IsoSpec.v
theories/V1Iso.v
theories/RoleEffSpec.v
theories/RoleEff.v
theories/V1More.v
theories/V1Ex.v
theories/PropsV1.v
theories/RootGrow.v
theories/PropsGrow.v
theories/QueryModel.v
theories/QuerySpec.v
theories/QueryProofs.v
theories/QueryMore.v
theories/QueryPerm.v
theories/QueryEx.v
theories/PropsQuery.v
theories/V1RegModel.v
theories/V1RegSpec.v
theories/V1RegProofs.v
theories/V1RegMore.v
theories/V1RegFin.v
theories/V1RegEx.v
theories/PropsV1b.v
theories/V2RegModel.v
theories/V2RegSpec.v
theories/V2RegProofs.v
theories/V2RegEx.v
theories/PropsV2b.v
theories/CTrieModel.v
theories/CTrieSpec.v
theories/CTrieProofs.v
theories/CTrieFin.v
theories/CTrieEx.v
theories/CRegModel.v
theories/CRegSpec.v
theories/CRegProofs.v
theories/CRegEx.v
theories/PropsConc.v
theories/CAssignModel.v
theories/CAssignSpec.v
theories/CAssignProofs.v
theories/CAssignHole.v
theories/CAssignEx.v
theories/PropsAssign.v
theories/CDagModel.v
theories/CDagSpec.v
theories/CDagProofs.v
theories/CDagTurn.v
theories/CDagHole.v
theories/CDagBetween.v
theories/CDagRace.v
theories/CDagEx.v
theories/PropsDag.v
theories/CRoleModel.v
theories/CRoleSpec.v
theories/CRoleProofs.v
theories/CRoleEx.v
theories/PropsCRole.v
theories/CDecModel.v
theories/CDecSpec.v
theories/CDecProofs.v
theories/CDecFinal.v
theories/CDecEx.v
theories/PropsCDec.v
theories/RowModel.v
theories/RowSpec.v
theories/RowProofs.v
theories/HeldModel.v
theories/HeldSpec.v
theories/HeldProofs.v
theories/ShareEx.v
theories/PropsShare.v
theories/LogModel.v
theories/LogSpec.v
theories/LogProofs.v
theories/LogEx.v
theories/PropsLog.v
theories/StrModel.v
theories/StrSpec.v
theories/StrProofs.v
theories/StrEx.v
theories/PropsStr.v
theories/DagHeldModel.v
theories/DagHeldSpec.v
theories/DagHeldProofs.v
theories/PropsDagHeld.v
theories/RDecModel.v
theories/RDecSpec.v
theories/RDecProofs.v
theories/RDecEx.v
theories/PropsRDec.v
theories/RConcModel.v
theories/RConcSpec.v
theories/RConcProofs.v
theories/RConcEx.v
theories/PropsRConc.v
theories/TenSpec.v
theories/TenProofs.v
theories/TenEx.v
theories/PropsTen.v
theories/V2OrdSpec.v
theories/V2OrdProofs.v
theories/V2OrdEx.v
theories/PropsV2Ord.v
theories/V1OrdSpec.v
theories/V1OrdProofs.v
theories/V1OrdEx.v
theories/PropsV1Ord.v
theories/NameSpec.v
theories/NameProofs.v
theories/NameEx.v
theories/PropsName.v
theories/V2CallsSpec.v
theories/V2CallsProofs.v
theories/V2CallsEx.v
theories/PropsV2Calls.v
theories/VConcModel.v
theories/VConcSpec.v
theories/VConcSeq.v
theories/VConcProofs.v
theories/VConcRace.v
theories/VConcSafe.v
theories/VConcHoles.v
theories/VConcEx.v
theories/PropsVConc.v
theories/V1CallsSpec.v
theories/V1CallsProofs.v
theories/V1CallsStep.v
theories/V1CallsRole.v
theories/V1CallsTell.v
theories/V1CallsDec.v
theories/V1CallsEx.v
theories/PropsV1Calls.v
theories/CallsSpec.v
theories/CallsProofs.v
theories/RootCallsSpec.v
theories/RootCallsStep.v
theories/RootCallsRole.v
theories/RootCallsParts.v
theories/RootCallsTell.v
theories/RootCallsDec.v
theories/RootCallsFresh.v
theories/RootCallsEx.v
theories/PropsRootCalls.v
theories/RootRetSpec.v
theories/RootCallsRet.v
theories/RootRetEx.v
theories/PropsRootRet.v
theories/V1RetSpec.v
theories/V1CallsRet.v
theories/V1RetEx.v
theories/PropsV1Ret.v
theories/V2RetSpec.v
theories/V2CallsRet.v
theories/V2RetEx.v
theories/PropsV2Ret.v
theories/RoleRefuse.v
theories/V1Refuse.v
theories/CostModel.v
theories/CostSpec.v
theories/CostProofs.v
theories/CostEx.v
theories/PropsCost.v
theories/RootRefuse.v
theories/RootRefuseEx.v
theories/V1PoolModel.v
theories/V1PoolSpec.v
theories/V1PoolProofs.v
theories/V1PoolInv.v
theories/V1PoolLemmas.v
theories/V1PoolEx.v
theories/PropsV1Pool.v
theories/JsonModel.v
theories/JsonSpec.v
theories/JsonProofs.v
theories/JsonEx.v
theories/PropsJson.v
theories/V1RowsModel.v
theories/V1RowsSpec.v
theories/V1RowsProofs.v
theories/V1RowsRun.v
theories/V1RowsInv.v
theories/V1RowsAns.v
theories/V1RowsAdd.v
theories/V1RowsEx.v
theories/PropsV1Rows.v
theories/JsonText.v
theories/TickModel.v
theories/TickSpec.v
theories/TickProofs.v
theories/TickFinal.v
theories/TickEx.v
theories/PropsTick.v
theories/HandModel.v
theories/HandSpec.v
theories/HandProofs.v
theories/HandWrite.v
theories/HandEx.v
theories/PropsHand.v
theories/EditModel.v
theories/EditSpec.v
theories/EditProofs.v
theories/EditIndex.v
theories/EditEx.v
theories/PropsEdit.v
theories/V1DocSpec.v
theories/V1DocProofs.v
theories/V1DocEx.v
theories/PropsV1Doc.v
theories/V2GrowSpec.v
theories/V2GrowProofs.v
theories/V2GrowEx.v
theories/PropsV2Grow.v
theories/PermModel.v
theories/PermSpec.v
theories/PermProofs.v
theories/PermEx.v
theories/PropsPerm.v
theories/V2ShrinkSpec.v
theories/V2ShrinkProofs.v
theories/V2ShrinkEx.v
theories/PropsV2Shrink.v
theories/V2OmitSpec.v
theories/V2OmitProofs.v
theories/V2OmitEx.v
theories/PropsV2Omit.v
theories/RootOmitSpec.v
theories/RootOmitProofs.v
theories/RootOmitEx.v
theories/PropsRootOmit.v
theories/V1OmitSpec.v
theories/V1OmitProofs.v
theories/V1OmitEx.v
theories/PropsV1Omit.v
