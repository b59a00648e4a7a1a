-Q theories Verif
theories/Base.v
theories/LesterFloat.v
theories/LesterFloatProofs.v
theories/Float32.v
theories/Float32Proofs.v
theories/PdfObject.v
theories/PdfObjectSpec.v
theories/PdfObjectProofs.v
theories/PdfObjectProps.v
theories/PdfSyntax.v
theories/PdfSyntaxSpec.v
theories/PdfSyntaxProofs.v
theories/PdfSyntaxProps.v
theories/PdfConvert.v
theories/PdfConvertSpec.v
theories/PdfConvertProofs.v
theories/PdfDrawProofs.v
theories/PdfDocProofs.v
theories/PdfCMapProofs.v
theories/PdfPagesProofs.v
theories/PdfConvertProps.v
theories/FontParsing.v
theories/FontCmap.v
theories/FontSpec.v
theories/FontProofs.v
theories/FontCmapProofs.v
theories/FontSafetyProofs.v
theories/FontParseProofs.v
theories/FontProps.v
theories/Dom.v
theories/DomSpec.v
theories/DomProofs.v
theories/DomTreeProofs.v
theories/DomWalkProofs.v
theories/DomStyleProofs.v
theories/DomXml.v
theories/DomXmlSpec.v
theories/DomXmlProofs.v
theories/DomProps.v
theories/StyleValues.v
theories/StyleProperties.v
theories/StyleCascade.v
theories/StyleSelectors.v
theories/StyleSpec.v
theories/StyleSelectorSpec.v
theories/StyleElementSpec.v
theories/StyleProofs.v
theories/StyleValueProofs.v
theories/StyleSelectorProofs.v
theories/StyleElementProofs.v
theories/StyleProps.v
theories/Geom.v
theories/GeomSpec.v
theories/Text.v
theories/LayoutTree.v
theories/InlineSpec.v
theories/Layout.v
theories/InlineProofs.v
theories/InlineLineProofs.v
theories/LayoutSpec.v
theories/LayoutProofs.v
theories/LayoutBlockProofs.v
theories/InlineBoxProofs.v
theories/LayoutWidthProofs.v
theories/LayoutScheduleProofs.v
theories/LayoutAbsoluteProofs.v
theories/LayoutTotalProofs.v
theories/LayoutProps.v
theories/InlineProps.v
theories/StyleBorderProps.v
theories/BoxTree.v
theories/BoxTreeSpec.v
theories/BoxTextProofs.v
theories/BoxTreeProofs.v
theories/BoxShapeProofs.v
theories/BoxTreeProps.v
theories/BoxSlots.v
theories/BoxSlotsSpec.v
theories/BoxSlotsProofs.v
theories/BoxSlotsTreeProofs.v
theories/BoxSlotsProps.v
theories/Paint.v
theories/PaintSpec.v
theories/Float32Print.v
theories/Float32PrintProofs.v
theories/PaintProofs.v
theories/PaintTextProofs.v
theories/PaintProps.v
theories/TextPlain.v
theories/TextPlainSpec.v
theories/TextPlainProofs.v
theories/TextPlainProps.v
theories/Lester.v
theories/LesterSpec.v
theories/LesterProofs.v
theories/LesterStreamProofs.v
theories/LesterSizeProofs.v
theories/LesterProps.v
theories/TaggedUnion.v
theories/TaggedUnionSpec.v
theories/TaggedUnionProofs.v
theories/TaggedUnionProps.v
theories/Reftests.v
theories/ReftestsSpec.v
theories/ReftestsProofs.v
theories/ReftestsProps.v
theories/Derives.v
theories/DerivesSpec.v
theories/DerivesProofs.v
theories/DerivesProofs2.v
theories/DerivesProps.v
theories/VeraFile.v
theories/VeraProofs.v
theories/ExtractSpec.v
theories/ExtractProofs.v
theories/VeraProps.v
theories/UserAgent.v
theories/UserAgentSpec.v
theories/UserAgentProofs.v
theories/UserAgentProps.v
theories/Main.v
theories/MainSpec.v
theories/MainProofs.v
theories/MainProps.v
theories/ExpectedFiles.v
theories/PdfExpected.v
theories/Arith32.v
theories/LayoutArith.v
theories/LayoutArithSpec.v
theories/LayoutArithProofs.v
theories/LayoutArithTextProofs.v
theories/LayoutArithPaintProofs.v
theories/LayoutArithProps.v
theories/Arith32Spec.v
theories/Arith32Proofs.v
theories/LayoutRelSpec.v
theories/LayoutRelProofs.v
theories/LayoutRelProps.v
theories/FontTypes.v
theories/FontTypesSpec.v
theories/FontTypesProps.v
theories/Dtoa32.v
theories/Dtoa32Proofs.v
theories/DecimalProofs.v
theories/ScaleProofs.v
theories/Dtoa32Props.v
theories/TextPlainArith.v
theories/TextPlainArithSpec.v
theories/TextPlainArithProofs.v
theories/TextPlainArithProps.v
theories/AliceExpected.v
theories/TextErrorSpec.v
theories/TextErrorProofs.v
theories/TextErrorProps.v
theories/TextGreedySpec.v
theories/TextGreedyProofs.v
theories/TextGreedyProps.v
theories/NameSpec.v
theories/NameProofs.v
theories/NameProps.v
theories/FontEmbedSpec.v
theories/FontEmbedProps.v
theories/BlockStackSpec.v
theories/BlockStackProofs.v
theories/BlockStackProps.v
theories/AlikeSpec.v
theories/AlikeDomProofs.v
theories/AlikeProofs.v
theories/AlikeProps.v
theories/RulesSpec.v
theories/RulesProofs.v
theories/RulesProps.v
theories/WiderSpec.v
theories/WiderProofs.v
theories/WiderProps.v
theories/SinkCalls.v
theories/SinkCallsSpec.v
theories/SinkCallsProofs.v
theories/SinkCallsProps.v
theories/OutOfFlowSpec.v
theories/OutOfFlowProofs.v
theories/OutOfFlowProps.v
theories/MarkupSpec.v
theories/MarkupProofs.v
theories/MarkupProps.v
theories/PdfStream.v
theories/PdfStreamSpec.v
theories/PdfStreamProofs.v
theories/PdfStreamProps.v
theories/OutOfFlowArithProofs.v
theories/OutOfFlowArithProps.v
theories/MainArith.v
theories/MainArithProps.v
theories/WhiteSpec.v
theories/WhiteProofs.v
theories/WhiteProps.v
theories/XmlPageSpec.v
theories/XmlPageProofs.v
theories/XmlPageProps.v
theories/RoundedLinesSpec.v
theories/RoundedLinesProofs.v
theories/RoundedLinesProps.v
theories/RoundingSpec.v
theories/RoundingProofs.v
theories/RoundingProps.v
theories/FontIdentity.v
theories/FontIdentitySpec.v
theories/FontIdentityProofs.v
theories/FontIdentityProps.v
theories/StyleNumbersSpec.v
theories/StyleNumbersProofs.v
theories/StyleNumbersProps.v
theories/StyleNumbersPaintProps.v
