-Q theories Verif
theories/PyStr.v
theories/PyRe.v
theories/PackUtil.v
theories/PyStrProofs.v
theories/PyReProofs.v
theories/PackSpec.v
theories/PackProofs.v
theories/PackProofs2.v
theories/PackProofs3.v
theories/PackProofs4.v
theories/PackProofs5.v
theories/PyReInv.v
theories/PackProofs6.v
theories/PackProofs7.v
theories/PackProofs8.v
theories/PackProofs9.v
theories/PackProofs10.v
theories/PackProofs11.v
theories/PackProofs12.v
theories/PackProofs13.v
theories/Just.v
theories/JustSpec.v
theories/JustProofs.v
theories/PackProofs14.v
theories/PropsPack.v
theories/Xml.v
theories/XmlSpec.v
theories/XmlProofs.v
theories/Master.v
theories/AdesTables.v
theories/AdesMasterTables.v
theories/TablesSpec.v
theories/TablesProofs.v
theories/TablesSpec2.v
theories/TablesProofs2.v
theories/PsvToXml.v
theories/PsvSpec.v
theories/PsvLines.v
theories/XmlProofs2.v
theories/NameSpec.v
theories/NameProofs.v
theories/PropsXml.v
theories/PsvProofs1.v
theories/PsvProofs2.v
theories/PsvProofs3.v
theories/PsvSpec2.v
theories/PsvProofs4.v
theories/PsvProofs5.v
theories/PsvProofs6.v
theories/FileLines.v
theories/PropsPsv.v
theories/PyFloat.v
theories/XmlToPsv.v
theories/RoundSpec.v
theories/RoundProofs1.v
theories/RoundProofs2.v
theories/RoundProofs3.v
theories/RoundProofs4.v
theories/RoundProofs5.v
theories/PropsRound.v
theories/SexVals.v
theories/PyFloatProofs.v
theories/SexSpec.v
theories/SexProofs1.v
theories/SexProofs2.v
theories/SexProofs3.v
theories/SexProofs4.v
theories/SexProofs5.v
theories/SexProofs6.v
theories/SexProofs7.v
theories/SexProofs8.v
theories/SexProofs9.v
theories/SexProofs10.v
theories/SexProofs11.v
theories/SexProofs12.v
theories/SexProofs13.v
theories/SexProofs14.v
theories/SexProofs15.v
theories/SexProofs16.v
theories/SexProofs17.v
theories/SexProofs18.v
theories/SexProofs19.v
theories/SexProofs20.v
theories/SexProofs21.v
theories/SexProofs22.v
theories/SexProofs23.v
theories/SexProofs24.v
theories/PropsSexAny.v
theories/Line80Spec.v
theories/LineProofs1.v
theories/LineProofs2.v
theories/LineProofs3.v
theories/PropsLine.v
theories/PropsSex.v
theories/FmtRe.v
theories/Codes.v
theories/Mpc80.v
theories/XmlToMpc80.v
theories/Mpc80Spec.v
theories/Mpc80Proofs1.v
theories/Mpc80Proofs2.v
theories/Mpc80Proofs3.v
theories/Mpc80Proofs4.v
theories/Mpc80Proofs5.v
theories/Mpc80Proofs6.v
theories/Mpc80Proofs7.v
theories/Mpc80Proofs8.v
theories/Mpc80Proofs9.v
theories/Mpc80Proofs10.v
theories/Mpc80Proofs11.v
theories/Mpc80Proofs12.v
theories/Mpc80Proofs13.v
theories/PropsMpc80.v
theories/DocSpec.v
theories/DocProofs1.v
theories/DocProofs2.v
theories/DocProofs3.v
theories/DocProofs4.v
theories/DocProofs5.v
theories/DocProofs6.v
theories/PropsDoc.v
theories/Json.v
theories/JsonSpec.v
theories/JsonProofs1.v
theories/JsonProofs2.v
theories/JsonProofs3.v
theories/PropsJson.v
theories/Pipe.v
theories/PipeSpec.v
theories/PipeProofs.v
theories/PropsPipe.v
theories/Schema.v
theories/XsdSpec.v
theories/XsdFiles.v
theories/SchemaSpec.v
theories/SchemaProofs1.v
theories/SchemaProofs2.v
theories/SchemaProofs3.v
theories/SchemaCheck.v
theories/PropsSchema.v
theories/XsdPattern.v
theories/IdSpec.v
theories/IdProofs1.v
theories/IdProofs2.v
theories/IdProofs3.v
theories/IdProofs4.v
theories/IdProofs5.v
theories/XsdMatch.v
theories/PropsId.v
theories/Back80Spec.v
theories/Back80Proofs1.v
theories/Back80Proofs2.v
theories/Back80Proofs3.v
theories/Back80Proofs4.v
theories/Back80Proofs5.v
theories/Back80Proofs6.v
theories/Back80Proofs7.v
theories/Back80Proofs8.v
theories/Back80Proofs9.v
theories/Back80Proofs10.v
theories/Back80Proofs11.v
theories/Back80Proofs12.v
theories/PropsBack.v
theories/RecordProofs1.v
theories/RecordProofs2.v
theories/RecordSpec.v
theories/RecordProofs3.v
theories/RecordProofs4.v
theories/RecordProofs5.v
theories/RecordProofs6.v
theories/RecordProofs7.v
theories/RecordProofs8.v
theories/RecordProofs9.v
theories/RecordProofs10.v
theories/PropsRecord.v
theories/ValueSpec.v
theories/ValueProofs1.v
theories/ValueProofs2.v
theories/ValueProofs3.v
theories/ValueProofs4.v
theories/ValueProofs5.v
theories/ValueProofs6.v
theories/ValueProofs7.v
theories/ValueProofs8.v
theories/ValueProofs9.v
theories/ValueProofs10.v
theories/ValueProofs11.v
theories/ValueProofs12.v
theories/ObsSpec.v
theories/ValueProofs13.v
theories/ValueProofs14.v
theories/ValueProofs15.v
theories/ValueProofs16.v
theories/ValueProofs17.v
theories/ValueProofs18.v
theories/ValidSpec.v
theories/LayoutSpec.v
theories/LayoutProofs1.v
theories/LayoutProofs2.v
theories/PropsLayout.v
theories/PropsValue.v
theories/Print80Spec.v
theories/Print80Proofs1.v
theories/PropsPrint.v
theories/HumanSchema.v
theories/HumanSpec.v
theories/HumanProofs.v
theories/PropsHuman.v
theories/MasterDocs.v
theories/ValUtility.v
theories/ValidatorSpec.v
theories/ValidatorProofs.v
theories/PropsValidator.v
theories/PsvValidSpec.v
theories/PsvValidProofs.v
theories/PropsPsvValid.v
theories/RecordProofs11.v
theories/ValidSpec2.v
theories/RecordProofs12.v
theories/LexSpec.v
theories/LexProofs1.v
theories/LexProofs2.v
theories/LexProofs3.v
theories/LexProofs4.v
theories/PropsRecord2.v
theories/SaidSpec.v
theories/SaidProofs.v
theories/PropsRecord3.v
theories/Submit80Spec.v
theories/Submit80Proofs1.v
theories/Submit80Proofs2.v
theories/Submit80Proofs3.v
theories/Submit80Proofs4.v
theories/Submit80Proofs5.v
theories/Submit80Proofs6.v
theories/XsdMatch2.v
theories/PropsSubmit80.v
theories/Return80Spec.v
theories/Return80Proofs1.v
theories/Return80Proofs2.v
theories/Return80Proofs3.v
theories/Return80Proofs4.v
theories/Return80Proofs5.v
theories/Return80Proofs6.v
theories/Return80Proofs7.v
theories/Return80Proofs8.v
theories/Return80Second.v
theories/Return80Second2.v
theories/Return80Proofs9.v
theories/Return80Proofs10.v
theories/Return80Proofs11.v
theories/Return80Blocks.v
theories/PropsReturn80.v
theories/ReadXml.v
theories/ReadXmlSpec.v
theories/ReadXmlProofs.v
theories/GetEncoding.v
theories/EncSpec.v
theories/EncProofs1.v
theories/EncProofs2.v
theories/EncProofs3.v
theories/PropsEncoding.v
theories/PropsListing.v
theories/TestData.v
theories/Conformance.v
theories/JsonText.v
theories/JsonTextSpec.v
theories/JsonTextProofs1.v
theories/JsonTextProofs2.v
theories/JsonTextProofs3.v
theories/JsonTextProofs4.v
theories/JsonTextProofs5.v
theories/PropsJsonText.v
