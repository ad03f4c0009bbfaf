-Q theories Verif
theories/Base.v
theories/BaseFacts.v
theories/Model_Text.v
theories/Model_Dataio.v
theories/Model_Record.v
theories/Spec_Record.v
theories/Proof_Text.v
theories/Proof_Record.v
theories/Props_Record.v
theories/Spec_Dataio.v
theories/Proof_Dataio.v
theories/Spec_Text.v
theories/Proof_Utf16.v
theories/Props_Dataio.v
theories/Model_Tree.v
theories/Spec_Tree.v
theories/Proof_Tree.v
theories/Props_Tree.v
theories/Model_ParaText.v
theories/Spec_ParaText.v
theories/Proof_ParaText.v
theories/Props_ParaText.v
theories/Model_Shape.v
theories/Spec_Shape.v
theories/Proof_Shape.v
theories/Props_Shape.v
theories/Model_Lang.v
theories/Spec_Lang.v
theories/Proof_Lang.v
theories/Props_Lang.v
theories/Model_Bintype.v
theories/Spec_Bintype.v
theories/Proof_Bintype.v
theories/Proof_Bintype2.v
theories/Props_Bintype.v
theories/Model_Distdoc.v
theories/Spec_Distdoc.v
theories/Proof_Distdoc.v
theories/Props_Distdoc.v
theories/Model_Readers.v
theories/Spec_Readers.v
theories/Proof_Readers.v
theories/Props_Readers.v
theories/Model_Resource.v
theories/Spec_Resource.v
theories/Proof_Resource.v
theories/Props_Resource.v
theories/Model_XmlText.v
theories/Spec_XmlText.v
theories/Proof_XmlText.v
theories/Props_XmlText.v
theories/Model_Classes.v
theories/Model_XmlModel.v
theories/Spec_XmlModel.v
theories/Proof_XmlModel.v
theories/Proof_XmlInline.v
theories/Proof_XmlFields.v
theories/Proof_XmlTexts.v
theories/Props_XmlModel.v
theories/Model_Storage.v
theories/Spec_Storage.v
theories/Proof_Storage.v
theories/Proof_Ole.v
theories/Proof_Unpack.v
theories/Props_Storage.v
theories/Model_Compressed.v
theories/Model_Filestructure.v
theories/Spec_Filestructure.v
theories/Proof_Filestructure.v
theories/Proof_Layers.v
theories/Proof_Sections.v
theories/Proof_Compressed.v
theories/Props_Filestructure.v
theories/Model_Oleprops.v
theories/Spec_Oleprops.v
theories/Proof_Oleprops.v
theories/Proof_OleText.v
theories/Props_Oleprops.v
theories/Model_Layouts.v
theories/Model_Models.v
theories/Spec_Models.v
theories/Proof_Models.v
theories/Props_Models.v
theories/Spec_Layouts.v
theories/Proof_Layouts.v
theories/Props_Layouts.v
theories/Model_XmlElement.v
theories/Model_XmlFile.v
theories/Spec_XmlElement.v
theories/Proof_Fits.v
theories/Proof_XmlElement.v
theories/Proof_XmlEntry.v
theories/Proof_XmlParts.v
theories/Proof_XmlRecord.v
theories/Proof_XmlDocument.v
theories/Proof_XmlNames.v
theories/Proof_XmlDocinfo.v
theories/Props_XmlElement.v
theories/Model_Odt.v
theories/Spec_Odt.v
theories/Proof_Odt.v
theories/Props_Odt.v
theories/Model_Embed.v
theories/Spec_Embed.v
theories/Proof_Embed.v
theories/Props_Embed.v
theories/Spec_Section.v
theories/Proof_Section.v
theories/Props_Section.v
theories/Spec_XmlFile.v
theories/Proof_XmlPasses.v
theories/Proof_XmlFile.v
theories/Proof_XmlSection.v
theories/Props_XmlFile.v
theories/Spec_XmlSummary.v
theories/Proof_XmlSummary.v
theories/Props_XmlSummary.v
theories/Spec_XmlHwp.v
theories/Proof_XmlIds.v
theories/Proof_XmlHwp.v
theories/Props_XmlHwp.v
theories/Model_Json.v
theories/Spec_Json.v
theories/Proof_Json.v
theories/Proof_JsonModels.v
theories/Props_Json.v
theories/Model_Proc.v
theories/Spec_Proc.v
theories/Proof_Proc.v
theories/Props_Proc.v
theories/Model_Events.v
theories/Spec_Events.v
theories/Proof_Events.v
theories/Proof_Events2.v
theories/Model_Commands.v
theories/Spec_Commands.v
theories/Proof_Commands.v
theories/Model_Convert.v
theories/Spec_Convert.v
theories/Proof_Convert.v
theories/Props_Events.v
theories/Props_Commands.v
theories/Props_Convert.v
theories/Model_Plaintext.v
theories/Spec_Plaintext.v
theories/Proof_Plaintext.v
theories/Proof_PlaintextXml.v
theories/Props_Plaintext.v
theories/Model_Heap.v
theories/Proof_Heap.v
theories/Spec_Heap.v
theories/Proof_Heap2.v
theories/Props_Heap.v
theories/Model_Html.v
theories/Spec_Html.v
theories/Proof_Html.v
theories/Proof_Html2.v
theories/Proof_Html3.v
theories/Proof_Html4.v
theories/Props_Html.v
theories/Model_Opendoc.v
theories/Spec_Opendoc.v
theories/Proof_Opendoc.v
theories/Proof_Opendoc2.v
theories/Proof_Opendoc3.v
theories/Proof_Opendoc4.v
theories/Proof_Opendoc5.v
theories/Proof_Opendoc6.v
theories/Proof_Opendoc7.v
theories/Proof_Opendoc8.v
theories/Props_Opendoc.v
theories/Spec_Formatting.v
theories/Proof_Formatting.v
theories/Proof_Formatting2.v
theories/Proof_Formatting3.v
theories/Proof_FormattingPage.v
theories/Proof_Formatting4.v
theories/Proof_Formatting5.v
theories/Props_Formatting.v
theories/Model_Lengths.v
theories/Spec_Lengths.v
theories/Proof_Lengths.v
theories/Proof_Lengths2.v
theories/Proof_Lengths3.v
theories/Props_Lengths.v
theories/Spec_FileLengths.v
theories/Proof_FileLengths.v
theories/Props_FileLengths.v
theories/Model_OdtMain.v
theories/Spec_OdtMain.v
theories/Proof_OdtMain.v
theories/Props_OdtMain.v
theories/Model_Format.v
theories/Spec_Format.v
theories/Proof_Format.v
theories/Props_Format.v
theories/Model_ProcMain.v
theories/Proof_ProcMain.v
theories/Props_ProcMain.v
