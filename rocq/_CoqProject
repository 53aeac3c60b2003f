-Q theories Verif

theories/CbApiProps.v
theories/CbModel.v
theories/CbMxModel.v
theories/CbMxProps.v
theories/CbProps.v
theories/CfEeModel.v
theories/CfEeProps.v
theories/CfModel.v
theories/CfProps.v
theories/CmdModel.v
theories/CmdProofs.v
theories/CmdProps.v
theories/CmdSpec.v
theories/CoModel.v
theories/CoProps.v
theories/CrModel.v
theories/CrProofs.v
theories/CrProps.v
theories/CtModel.v
theories/CtProps.v
theories/CwModel.v
theories/CwProps.v
theories/EeModel.v
theories/EeProps.v
theories/FmCompModel.v
theories/FmCompProps.v
theories/FmModel.v
theories/FmPatModel.v
theories/FmPatProps.v
theories/FmProps.v
theories/FmViewProps.v
theories/InKeysProps.v
theories/InModel.v
theories/InProofs.v
theories/InProps.v
theories/InSpec.v
theories/InViewModel.v
theories/InViewProps.v
theories/InlineEmu.v
theories/InlineFrames.v
theories/InlineIoModel.v
theories/InlineIoProps.v
theories/InlineModel.v
theories/InlineMxModel.v
theories/InlineMxProps.v
theories/InlineProps.v
theories/InlineSpec.v
theories/JcModel.v
theories/JcProofs.v
theories/JcProps.v
theories/KeysMixProps.v
theories/KeysModel.v
theories/KeysNameProps.v
theories/KeysProofs.v
theories/KeysProps.v
theories/KeysSpec.v
theories/LifeModel.v
theories/LifePanicModel.v
theories/LifePanicProps.v
theories/LifeProofs.v
theories/LifeProps.v
theories/LifeSpec.v
theories/LsModel.v
theories/LsProofs.v
theories/LsProps.v
theories/LsRowModel.v
theories/LsRowProps.v
theories/LsSpec.v
theories/LsViewProps.v
theories/LyApiModel.v
theories/LyApiProps.v
theories/LyModel.v
theories/LyProofs.v
theories/LyProps.v
theories/MdEeModel.v
theories/MdEeProofs.v
theories/MdEeProps.v
theories/MdModel.v
theories/MdProps.v
theories/MsEeModel.v
theories/MsEeProps.v
theories/MsModel.v
theories/MsProofs.v
theories/MsProps.v
theories/MsSpec.v
theories/MsValProps.v
theories/MtModel.v
theories/MtProps.v
theories/MxModel.v
theories/MxProofs.v
theories/PdMiscProps.v
theories/PdModel.v
theories/PdProps.v
theories/PdResumeProps.v
theories/PgModel.v
theories/PgProps.v
theories/Prelude.v
theories/RenderEmu.v
theories/RenderIoModel.v
theories/RenderIoProps.v
theories/RenderModel.v
theories/RenderProofs.v
theories/RenderProps.v
theories/RenderSpec.v
theories/RgModel.v
theories/RgProps.v
theories/RmModel.v
theories/RmProps.v
theories/RpFit.v
theories/RpModel.v
theories/RpOwn.v
theories/RpProofs.v
theories/RpProps.v
theories/RpSpec.v
theories/RpSys.v
theories/RtHtmlProps.v
theories/RtModel.v
theories/RtProofs.v
theories/RtReaderProps.v
theories/RtReaderSpec.v
theories/RtRtfProofs.v
theories/RtRtfProps.v
theories/SecProps.v
theories/SelEeModel.v
theories/SelEeProps.v
theories/SelModel.v
theories/SelProofs.v
theories/SelProps.v
theories/SelSpec.v
theories/SelViewProps.v
theories/SyColorProps.v
theories/SyModel.v
theories/SyMoreProps.v
theories/SyMxModel.v
theories/SyMxProps.v
theories/SyProofs.v
theories/SyRenderProps.v
theories/SySpec.v
theories/SyTextProps.v
theories/SyThemeProps.v
theories/TaEdgeProps.v
theories/TaEeModel.v
theories/TaEeProps.v
theories/TaKeysProps.v
theories/TaModel.v
theories/TaObsProps.v
theories/TaProofs.v
theories/TaProps.v
theories/TaSpec.v
theories/TaViewModel.v
theories/TaViewProps.v
theories/TbModel.v
theories/TbProofs.v
theories/TbProps.v
theories/TbSpec.v
theories/TbViewProps.v
theories/TeaModel.v
theories/TeaOrderProps.v
theories/TeaProofs.v
theories/TeaProps.v
theories/TeaSendProps.v
theories/TeaSourceProps.v
theories/TeaSpec.v
theories/TermEmu.v
theories/Text.v
theories/ThModel.v
theories/ThProps.v
theories/TmModel.v
theories/TmMxModel.v
theories/TmMxProps.v
theories/TmProofs.v
theories/TmProps.v
theories/TmSpec.v
theories/TruncItems.v
theories/TruncProofs.v
theories/Utf8.v
theories/VpModel.v
theories/VpProofs.v
theories/VpProps.v
theories/VpSpec.v
theories/WcModel.v
theories/WcMxModel.v
theories/WcMxProps.v
theories/WcProps.v
theories/XcModel.v
theories/XcProps.v
theories/XwModel.v
theories/XwProps.v
