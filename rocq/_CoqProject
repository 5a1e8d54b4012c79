-Q theories Verif
theories/CBase.v
theories/CBaseProofs.v
theories/TocModel.v
theories/SpecToc.v
theories/SortProofs.v
theories/RangeProofs.v
theories/ValidProofs.v
theories/PreviewProofs.v
theories/PropLayout.v
theories/BoxModel.v
theories/BoxProofs.v
theories/EqualProofs.v
theories/TocProofs.v
theories/TocProofs2.v
theories/TocProofs3.v
theories/PropToc.v
theories/TocProofs4.v
theories/PropToc2.v
theories/SpecToc2.v
theories/TocProofs5.v
theories/PropToc3.v
theories/XmlEntity.v
theories/XmlModel.v
theories/SpecXml.v
theories/EntityProofs.v
theories/Utf8Proofs.v
theories/XmlTermProofs.v
theories/TrimProofs.v
theories/XmlProofs.v
theories/XmlText.v
theories/XmlRound.v
theories/SimProofs.v
theories/SimExact.v
theories/WalkModel.v
theories/WalkProofs.v
theories/XmlMem.v
theories/XmlMem2.v
theories/SpecEntity.v
theories/PropXml.v
theories/TocXmlModel.v
theories/TocXmlBase.v
theories/SpecTocXml.v
theories/TocXmlProofs.v
theories/TocXmlProofs2.v
theories/TocXmlProofs3.v
theories/TocXmlProofs4.v
theories/TocXmlProofs5.v
theories/TocXmlNorm.v
theories/TagsModel.v
theories/TocXmlRound.v
theories/PropTocXml.v
theories/ShaModel.v
theories/SpecSha.v
theories/ShaProofs.v
theories/ShaProofs2.v
theories/ShaProofs3.v
theories/ShaProofs4.v
theories/PropSha.v
theories/XmlRoots.v
theories/ControlModel.v
theories/SpecControl.v
theories/ControlProofs.v
theories/ControlProofs2.v
theories/PropControl.v
theories/ImageModel.v
theories/SpecImage.v
theories/PropImage.v
theories/ZeroModel.v
theories/ZeroProofs.v
theories/PropZero.v
theories/TableModel.v
theories/SpecTable.v
theories/TableProofs.v
theories/PropTable.v
theories/PropTable2.v
theories/PropTable3.v
theories/RefModel.v
theories/SpecRef.v
theories/RefProofs.v
theories/PropRef.v
theories/CloneModel.v
theories/PropRef2.v
theories/PropRef3.v
theories/WsModel.v
theories/SpecWs.v
theories/WsProofs.v
theories/PropWs.v
theories/FormatModel.v
theories/SpecFormat.v
theories/PropFormat.v
theories/NodeModel.v
theories/SpecNode.v
theories/NodeProofs.v
theories/NodeProofs2.v
theories/NodeProofs3.v
theories/NodeProofs4.v
theories/NodeBuild.v
theories/NodeProofs5.v
theories/NodeProofs6.v
theories/PropNode.v
theories/FileModel.v
theories/SpecFile.v
theories/FileProofs.v
theories/PropFile.v
theories/SpecCut.v
theories/CutProofs.v
theories/CutProofs2.v
theories/CutProofs3.v
theories/CutProofs4.v
theories/PropCut.v
theories/PropFile2.v
theories/LoadModel.v
theories/SpecLoad.v
theories/LoadProofs.v
theories/LoadProofs2.v
theories/PropLoad.v
theories/PropSha2.v
theories/PropLoad2.v
theories/PropToc4.v
theories/ThreadModel.v
theories/SpecThread.v
theories/ThreadProofs.v
theories/PropThread.v
theories/CreateModel.v
theories/SpecCreate.v
theories/PropCreate.v
theories/BuildModel.v
theories/SpecBuild.v
theories/BuildProofs.v
theories/PropBuild.v
theories/ToolModel.v
theories/SpecTool.v
theories/SpecTool2.v
theories/ToolProofs.v
theories/ToolProofs2.v
theories/ToolProofs3.v
theories/PropTool.v
theories/ToolProofs4.v
theories/ToolProofs5.v
theories/ToolProofs6.v
theories/PropTool2.v
theories/ToolProofs7.v
theories/PropTool3.v
theories/ToolProofs8.v
theories/PropTool4.v
theories/WriterModel.v
theories/SpecWriter.v
theories/WriterProofs.v
theories/WriterProofs2.v
theories/WriterProofs3.v
theories/PropWriter.v
theories/ParseModel.v
theories/ParseProofs.v
theories/PropParse.v
theories/PropUtf16.v
theories/PropExact.v
theories/PropCdata.v
theories/PropTool5.v
theories/SpecGrammar.v
theories/GrammarProofs.v
theories/SpecForeign.v
theories/ForeignProofs.v
theories/PropGrammar.v
theories/WrittenProofs.v
theories/WrittenProofs2.v
theories/PropWritten.v
theories/SpecSchema.v
theories/SpecSchema2.v
theories/SchemaProofs.v
theories/SchemaProofs2.v
theories/SchemaProofs3.v
theories/SchemaProofs4.v
theories/PropSchema.v
theories/SpecPretty.v
theories/PrettyProofs.v
theories/PrettyProofs2.v
theories/PrettyProofs3.v
theories/PropPretty.v
theories/SpecRelease.v
theories/ResourceModel.v
theories/ReleaseProofs.v
theories/PropRelease.v
theories/SessionModel.v
theories/SpecSession.v
theories/SessionProofs.v
theories/PropSession.v
theories/PropSession2.v
theories/StableProofs.v
theories/PropStable.v
