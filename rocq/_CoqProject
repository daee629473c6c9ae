-Q theories Verif
theories/Base.v
theories/TextModel.v
theories/TextSpec.v
theories/TextProofs.v
theories/TextProps.v
theories/LineModel.v
theories/LineSpec.v
theories/LineProofs.v
theories/MultiCellProofs.v
theories/WriteModel.v
theories/WriteProofs.v
theories/GreedyProofs.v
theories/LineProps.v
theories/Crypto.v
theories/DocModel.v
theories/DocSpec.v
theories/DocSort.v
theories/DocProofs.v
theories/DocWalk.v
theories/PageSpec.v
theories/DocPage.v
theories/DocParts.v
theories/DocRes.v
theories/DocRes2.v
theories/DocEnd.v
theories/DocXref.v
theories/DocLayout.v
theories/DocFile.v
theories/OutlineSpec.v
theories/DocOutline.v
theories/DocBack.v
theories/DocProps.v
theories/DocProps2.v
theories/DocOrder.v
theories/ApiModel.v
theories/ApiProofs.v
theories/ApiErr.v
theories/ApiQuiet.v
theories/ApiTurn.v
theories/ApiLife.v
theories/ApiInst.v
theories/ApiLifeProps.v
theories/ApiTrack.v
theories/ApiNestProps.v
theories/ApiKeep.v
theories/ApiSync.v
theories/ApiKeepProps.v
theories/ApiBreak.v
theories/ApiBreakProps.v
theories/ApiColor.v
theories/ApiColorProps.v
theories/ApiRes.v
theories/ApiResProps.v
theories/ApiFontProps.v
theories/ApiSetProps.v
theories/TransProps.v
theories/SizeProps.v
theories/AliasProofs.v
theories/AliasProps.v
theories/ProtectSpec.v
theories/ProtectModel.v
theories/ProtectProps.v
theories/CompareProps.v
theories/KeyMap.v
theories/CidSpec.v
theories/CidModel.v
theories/CidProofs.v
theories/CidProps.v
theories/TtfSpec.v
theories/TtfModel.v
theories/TtfProofs.v
theories/TtfProps.v
theories/TtfCmap.v
theories/HtmlSpec.v
theories/HtmlModel.v
theories/HtmlProps.v
theories/GridModel.v
theories/GridProps.v
theories/SvgSpec.v
theories/SvgModel.v
theories/SvgProps.v
theories/PngSpec.v
theories/PngModel.v
theories/PngProps.v
theories/DrawSpec.v
theories/DrawModel.v
theories/DrawProps.v
theories/TplModel.v
theories/TplProps.v
theories/TplImgProps.v
theories/ResSpec.v
theories/ResProofs.v
theories/ResProofs2.v
theories/ResProofs3.v
theories/ResProofs4.v
theories/ImpProofs.v
theories/ResProofs5.v
theories/ResProps.v
theories/PageProps.v
theories/CutSpec.v
theories/CutModel.v
theories/CutProofs.v
theories/CutClosure.v
theories/CutRead.v
theories/CutGlyphs.v
theories/CutSymbols.v
theories/CutCmap.v
theories/CutOut.v
theories/CutMain.v
theories/CutProps.v
theories/CutExample.v
theories/CutTotal.v
theories/CutTotalProps.v
theories/WidthModel.v
theories/WidthProofs.v
theories/WidthProps.v
theories/WidthExample.v
theories/MetricProps.v
theories/RoundProps.v
theories/CatSpec.v
theories/CatProofs.v
theories/CatProps.v
theories/CellModel.v
theories/CellSpec.v
theories/CellProofs.v
theories/CellProps.v
theories/ClipSpec.v
theories/ClipModel.v
theories/ClipProps.v
theories/FontSpec.v
theories/FontModel.v
theories/FontProofs.v
theories/FontProps.v
theories/MakeSpec.v
theories/MakeModel.v
theories/MakeProofs.v
theories/MakeProps.v
theories/RegModel.v
theories/RegSpec.v
theories/RegProps.v
theories/SerModel.v
theories/SerSpec.v
theories/SerProps.v
theories/ImgModel.v
theories/ImgSpec.v
theories/ImgProps.v
theories/ImpModel.v
theories/ImpSpec.v
theories/ImpProps.v
theories/PgModel.v
theories/PgSpec.v
theories/PgProps.v
theories/UseModel.v
theories/UseProofs.v
theories/UseProps.v
theories/SetModel.v
theories/SetSpec.v
theories/SetProps.v
theories/AlnModel.v
theories/AlnProps.v
theories/MemModel.v
theories/MemProps.v
theories/GetModel.v
theories/GetProps.v
theories/OutModel.v
theories/OutProps.v
theories/CrashProps.v
theories/ReadSpec.v
theories/ReadProofs.v
theories/ReadProps.v
theories/ReadBoxProps.v
theories/ReadLinkProps.v
theories/ReadInfoProps.v
theories/ReadOutline.v
theories/ReadOutlineProps.v
theories/ReadFilesProps.v
theories/MapModel.v
theories/MapProps.v
