-Q theories Verif
theories/GoBase.v
theories/Base64.v
theories/StatusSpec.v
theories/StatusModel.v
theories/StatusProofs.v
theories/StatusProps.v
theories/ReqSpec.v
theories/ReqModel.v
theories/ReqProofs.v
theories/ReqIter.v
theories/ReqSearch.v
theories/ReqProps.v
theories/PexSpec.v
theories/PexModel.v
theories/StrLemmas.v
theories/PexProofs.v
theories/PexMerge.v
theories/PexMatch.v
theories/PexCompact.v
theories/PexPath.v
theories/PexLimit.v
theories/PexProps.v
theories/JwtSpec.v
theories/JwtModel.v
theories/JwtProofs.v
theories/JwtProps.v
theories/SdSpec.v
theories/SdModel.v
theories/SdProofs.v
theories/SdRun.v
theories/SdOrder.v
theories/SdParse.v
theories/SdParseProofs.v
theories/SdSubset.v
theories/SdProps.v
theories/SdIssueSpec.v
theories/SdIssueModel.v
theories/SdIssueEnc.v
theories/SdIssueTop.v
theories/SdIssueV2.v
theories/SdIssueMain.v
theories/SdIssueV5.v
theories/SdIssueVc.v
theories/SdIssueProps.v
theories/SdIssueProps2.v
theories/SdIssueProps3.v
theories/DiSpec.v
theories/DiModel.v
theories/DiProofs.v
theories/DiProps.v
theories/VcSpec.v
theories/VcModel.v
theories/VcJwt.v
theories/VcParse.v
theories/VcProofs.v
theories/VcView.v
theories/VcText.v
theories/VcMod.v
theories/VcProps.v
theories/VcSecure.v
theories/VcProps2.v
theories/VcJwtProofs.v
theories/VcPanic.v
theories/VcProps3.v
theories/VcSign.v
theories/VcSignProofs.v
theories/VcProps4.v
theories/VcProps5.v
theories/VcSd.v
theories/VcSdProofs.v
theories/VcProps6.v
theories/DcModel.v
theories/DcProps.v
theories/CombModel.v
theories/CombProps.v
theories/CombProps2.v
theories/VpModel.v
theories/VpProofs.v
theories/VpPanic.v
theories/VpProps.v
theories/VpProps2.v
theories/VpSignProofs.v
theories/VpProps3.v
theories/VcAdd.v
theories/VcProps7.v
theories/DispSpec.v
theories/VcDispProofs.v
theories/VcProps8.v
theories/VcMakeProofs.v
theories/VcProps9.v
theories/VcProps10.v
theories/RrSpec.v
theories/RrModel.v
theories/RrProofs.v
theories/RrProps.v
theories/MemSpec.v
theories/MemModel.v
theories/MemProofs.v
theories/MemLin.v
theories/MemStep.v
theories/MemProps.v
theories/MemProps2.v
theories/ResSpec.v
theories/ResModel.v
theories/ResProofs.v
theories/ResProps.v
theories/LdModel.v
theories/LdSpec.v
theories/LdProofs.v
theories/LdProps.v
theories/LdProps2.v
theories/LdProps3.v
theories/BbsModel.v
theories/BbsSpec.v
theories/BbsProofs.v
theories/BbsProps.v
theories/CwModel.v
theories/CwSpec.v
theories/CwProofs.v
theories/CwProofs2.v
theories/CwProofs3.v
theories/CwProofs4.v
theories/CwProofs5.v
theories/CwProps.v
theories/CwProps2.v
theories/CwProps3.v
theories/PxSpec.v
theories/PxModel.v
theories/PxProofs.v
theories/PxProofs2.v
theories/PxFrame.v
theories/PxProps.v
theories/PxProps2.v
theories/PxProps3.v
theories/WmModel.v
theories/WmSpec.v
theories/WmProofs.v
theories/WmProofs2.v
theories/WmProofs3.v
theories/WmProofs4.v
theories/WmProofs5.v
theories/WmLink.v
theories/WmProps.v
theories/WmProps2.v
theories/JsModel.v
theories/JsSchemas.v
theories/JsSpec.v
theories/JsProofs.v
theories/JsDesc.v
theories/JsCred.v
theories/JsCred2.v
theories/JsLoad.v
theories/JsCreate.v
theories/JsProps.v
theories/JsProps2.v
theories/DfModel.v
theories/DfSpec.v
theories/DfProofs.v
theories/DfProofs2.v
theories/DfProofs3.v
theories/DfProps.v
theories/ScModel.v
theories/ScSpec.v
theories/ScProofs.v
theories/ScProofs2.v
theories/ScProps.v
theories/MtModel.v
theories/MtSpec.v
theories/MtProofs.v
theories/MtProofs2.v
theories/MtProofs3.v
theories/MtProps.v
theories/OpModel.v
theories/OpSpec.v
theories/OpProofs.v
theories/OpProofs2.v
theories/OpProofs3.v
theories/OpProps.v
theories/AlModel.v
theories/AlSpec.v
theories/AlProofs.v
theories/AlProofs2.v
theories/AlProofs3.v
theories/AlProofs4.v
theories/AlProofs5.v
theories/AlProps.v
theories/SlModel.v
theories/SlSpec.v
theories/SlProps.v
theories/SdKbProps.v
theories/KaSpec.v
theories/KaModel.v
theories/KaProps.v
theories/TpProofs.v
theories/TpProps.v
theories/TpProps2.v
theories/CkModel.v
theories/CkProps.v
theories/PrModel.v
theories/PrSpec.v
theories/PrProofs.v
theories/PrProofs2.v
theories/PrProps.v
theories/JnModel.v
theories/JnProofs.v
theories/JnProps.v
theories/JnProps2.v
theories/JnProps3.v
theories/JnProps4.v
theories/JnProps5.v
