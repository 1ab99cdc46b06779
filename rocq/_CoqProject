-Q theories Verif
theories/Word.v
theories/WordLemmas.v
theories/ElfDefs.v
theories/X86RelocModel.v
theories/X86RelocSpec.v
theories/X86RelocProofs.v
theories/X86RelocExamples.v
theories/X86RelocMore.v
theories/X86RelocProps.v
theories/InsnModel.v
theories/InsnSpec.v
theories/InsnProofs.v
theories/InsnProps.v
theories/A64Model.v
theories/A64Spec.v
theories/A64Proofs.v
theories/A64RelocSpec.v
theories/A64RelocProofs.v
theories/A64RelocMore.v
theories/A64RelocExamples.v
theories/A64Props.v
theories/RbModel.v
theories/RbSpec.v
theories/RbSep.v
theories/RbInsert.v
theories/RbPure.v
theories/RbTop.v
theories/RbErase.v
theories/RbWalk.v
theories/RbSeq.v
theories/RbProps.v
theories/ListModel.v
theories/ListSpec.v
theories/ListProofs.v
theories/ListSort.v
theories/ListProps.v
theories/Str.v
theories/VmaModel.v
theories/VmaSpec.v
theories/VmaProofs.v
theories/VmaProps.v
theories/SymModel.v
theories/SymSpec.v
theories/SymProofs.v
theories/SymProps.v
theories/ScModel.v
theories/ScSpec.v
theories/ScProofs.v
theories/ScProps.v
theories/TextModel.v
theories/TextSpec.v
theories/TextProofs.v
theories/TextProps.v
theories/LdModel.v
theories/LdSpec.v
theories/LdProofs.v
theories/LdSyms.v
theories/LdMore.v
theories/LdEx.v
theories/LdProps.v
theories/X86GotProps.v
theories/PaModel.v
theories/PaSpec.v
theories/PaRead.v
theories/PaProofs.v
theories/PaMore.v
theories/PaKick.v
theories/PaLoad.v
theories/PaSess.v
theories/PaHist.v
theories/PaX86.v
theories/PaEx.v
theories/PaFin.v
theories/PaThm.v
theories/PaCase.v
theories/PaProps.v
theories/ElfModel.v
theories/ElfSpec.v
theories/ElfProofs.v
theories/ElfFile.v
theories/ElfFileProofs.v
theories/ElfProps.v
theories/MiscModel.v
theories/MiscSpec.v
theories/MiscProofs.v
theories/MiscProps.v
theories/TrModel.v
theories/TrSpec.v
theories/TrProofs.v
theories/TrProps.v
theories/CmdModel.v
theories/CmdSpec.v
theories/CmdProps.v
theories/FsModel.v
theories/FsSpec.v
theories/FsProofs.v
theories/FsProps.v
theories/ToolModel.v
theories/ToolProps.v
theories/PkModel.v
theories/PkSpec.v
theories/PkProps.v
theories/ShModel.v
theories/ShSpec.v
theories/ShProofs.v
theories/ShProps.v
theories/PrModel.v
theories/PrSpec.v
theories/PrProofs.v
theories/PrProps.v
theories/MpModel.v
theories/MpSpec.v
theories/MpProofs.v
theories/MpProps.v
theories/EcModel.v
theories/EcSpec.v
theories/EcProofs.v
theories/EcProps.v
theories/ArModel.v
theories/ArSpec.v
theories/ArProofs.v
theories/ArProps.v
theories/RnSpec.v
theories/RnProofs.v
theories/RnMach.v
theories/RnHist.v
theories/RnProps.v
theories/RnRaceProps.v
theories/CmdStrProps.v
theories/LkSpec.v
theories/LkSyms.v
theories/LkRel.v
theories/LkProofs.v
theories/LkProps.v
theories/LkArch.v
theories/LkA64Props.v
theories/RsModel.v
theories/RsSpec.v
theories/RsProofs.v
theories/RsProps.v
theories/DsModel.v
theories/DsSpec.v
theories/DsProofs.v
theories/DsProps.v
theories/SgModel.v
theories/SgSpec.v
theories/SgProofs.v
theories/SgProps.v
theories/LiModel.v
theories/LiSpec.v
theories/LiProofs.v
theories/LiProps.v
theories/LbModel.v
theories/LbSpec.v
theories/LbProps.v
theories/AsModel.v
theories/AsSpec.v
theories/AsProofs.v
theories/AsProps.v
theories/AoSpec.v
theories/AoProps.v
theories/GrModel.v
theories/GrSpec.v
theories/GrProofs.v
theories/GrProps.v
theories/SuProps.v
theories/VrSpec.v
theories/VrProofs.v
theories/VrProps.v
theories/AxModel.v
theories/AxProps.v
theories/FxModel.v
theories/FxProps.v
theories/BfModel.v
theories/BfSpec.v
theories/BfProofs.v
theories/BfProps.v
theories/UiModel.v
theories/UiSpec.v
theories/UiProofs.v
theories/UiProps.v
theories/TnModel.v
theories/TnSpec.v
theories/TnProps.v
theories/ClModel.v
theories/ClSpec.v
theories/ClProps.v
theories/FcModel.v
theories/FcSpec.v
theories/FcProps.v
theories/MtModel.v
theories/MtSpec.v
theories/MtProps.v
theories/UcModel.v
theories/UcSpec.v
theories/UcProps.v
theories/MtEscProps.v
theories/RtModel.v
theories/RtSpec.v
theories/RtProps.v
