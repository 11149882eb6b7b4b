-Q theories Verif
theories/Unicode.v
theories/UnicodeAlnum.v
theories/PyBase.v
theories/PyBaseFacts.v
theories/NumModel.v
theories/IdModel.v
theories/LineModel.v
theories/DateModel.v
theories/NumSpec.v
theories/NumProofs.v
theories/P_Num.v
theories/IdSpec.v
theories/IdProofs.v
theories/P_Id.v
theories/LineSpec.v
theories/LineProofs.v
theories/P_Line.v
theories/DateSpec.v
theories/DateProofs.v
theories/P_Date.v
theories/RefModel.v
theories/RefSpec.v
theories/RefProofs.v
theories/RefProofs2.v
theories/RefProofs3.v
theories/P_Ref.v
theories/TreeModel.v
theories/TreeSpec.v
theories/TreeProofs.v
theories/TreeProofs2.v
theories/TreeProofs3.v
theories/P_Tree.v
theories/FixupModel.v
theories/FixupSpec.v
theories/FixupProofs.v
theories/P_Fixup.v
theories/FixupEntries.v
theories/FixupData1.v
theories/FixupData2.v
theories/FixupTable.v
theories/FixTableSpec.v
theories/FixTableProofs.v
theories/StructModel.v
theories/StructSpec.v
theories/StructPatterns.v
theories/StructProofs.v
theories/StructProofs2.v
theories/StructProofs3.v
theories/StructProofs4.v
theories/StructProofs5.v
theories/P_Struct.v
theories/P_FixTable.v
theories/LayoutSpec.v
theories/LayoutProofs.v
theories/LayoutProofs2.v
theories/LayoutProofs3.v
theories/P_Layout.v
theories/BodySpec.v
theories/BodyProofs.v
theories/BodyProofs2.v
theories/BodyProofs3.v
theories/P_Body.v
theories/SemModel.v
theories/SemSpec.v
theories/SemProofs.v
theories/SemProofs2.v
theories/SemProofs3.v
theories/SemProofs4.v
theories/SemProofs5.v
theories/SemProofs6.v
theories/SemProofs7.v
theories/SemProofs8.v
theories/SemProofs9.v
theories/P_Sem.v
theories/GramModel.v
theories/PegModel.v
theories/GramSpec.v
theories/GramProofs.v
theories/GramProofs2.v
theories/GramProofs3.v
theories/GramProofs4.v
theories/P_Gram.v
theories/PegSpec.v
theories/PegSpec2.v
theories/PegProofs.v
theories/PegProofs2.v
theories/PegProofs22.v
theories/PegProofs23.v
theories/PegProofs24.v
theories/PegProofs25.v
theories/PegProofs26.v
theories/PegProofs27.v
theories/PegProofs28.v
theories/PegProofs29.v
theories/PegProofs30.v
theories/PegProofs31.v
theories/PegSpec3.v
theories/PegSpec4.v
theories/PegProofs32.v
theories/PegProofs33.v
theories/PegProofs34.v
theories/PegProofs35.v
theories/JointProofs.v
theories/JointProofs2.v
theories/PegProofs36.v
theories/PegProofs37.v
theories/PegProofs38.v
theories/PegProofs39.v
theories/PegProofs40.v
theories/PegSpec5.v
theories/PegProofs41.v
theories/PegProofs42.v
theories/PegProofs3.v
theories/PegProofs4.v
theories/PegProofs18.v
theories/PegProofs5.v
theories/PegProofs6.v
theories/PegProofs7.v
theories/PegProofs8.v
theories/PegProofs9.v
theories/PegProofs10.v
theories/PegProofs11.v
theories/PegProofs12.v
theories/PegProofs13.v
theories/PegProofs14.v
theories/PegProofs15.v
theories/PegProofs16.v
theories/PegProofs17.v
theories/PegProofs19.v
theories/PegProofs20.v
theories/PegProofs21.v
theories/P_Peg.v
theories/AmendSpec.v
theories/AmendProofs.v
theories/P_Amend.v
theories/GazModel.v
theories/GazSpec.v
theories/GazProofs.v
theories/GazProofs2.v
theories/P_Gaz.v
theories/ExtModel.v
theories/ExtSpec.v
theories/ExtProofs.v
theories/P_Ext.v
theories/PdfModel.v
theories/PdfSpec.v
theories/PdfProofs.v
theories/PdfProofs2.v
theories/PdfProofs3.v
theories/PdfProofs4.v
theories/P_Pdf.v
theories/D2oModel.v
theories/D2oSpec.v
theories/D2oProofs.v
theories/D2oProofs2.v
theories/D2oProofs3.v
theories/D2oHun.v
theories/D2oHunSpec.v
theories/D2oHunProofs.v
theories/D2oHunProofs2.v
theories/D2oHunProofs3.v
theories/P_D2o.v
theories/JsonSpec.v
theories/JsonProofs.v
theories/D2oReadSpec.v
theories/D2oReadProofs.v
theories/D2oReadProofs2.v
theories/P_Read.v
theories/CacheModel.v
theories/CacheSpec.v
theories/CacheProofs.v
theories/CacheExample.v
theories/P_Cache.v
theories/HtmlModel.v
theories/HtmlSpec.v
theories/HtmlProofs.v
theories/HtmlProofs2.v
theories/HtmlProofs3.v
theories/HtmlProofs4.v
theories/HtmlProofs5.v
theories/HtmlProofs6.v
theories/P_Html.v
theories/TxtModel.v
theories/TxtSpec.v
theories/TxtProofs.v
theories/TxtProofs2.v
theories/TxtProofs3.v
theories/P_Txt.v
theories/PipeModel.v
theories/PipeSpec.v
theories/PipeProofs.v
theories/P_Pipe.v
theories/CliModel.v
theories/CliSpec.v
theories/CliProofs.v
theories/P_Cli.v
theories/EditModel.v
theories/EditSpec.v
theories/EditProofs.v
theories/P_Edit.v
theories/FidelityStruct.v
theories/FidelityGrammar.v
theories/P_Told.v
theories/P_Amends.v
theories/DivSpec.v
theories/DivProofs.v
theories/DivProofs2.v
theories/P_Div.v
theories/SubSpec.v
theories/SubProofs.v
theories/SubProofs2.v
theories/SubProofs3.v
theories/SubProofs4.v
theories/P_Sub.v
theories/PlaceSpec.v
theories/PlaceProofs.v
theories/P_Place.v
theories/P_Changes.v
theories/P_Enforce.v
theories/P_Skip.v
theories/FitSpec.v
theories/LawSpec.v
theories/FitProofs.v
theories/FitProofs2.v
theories/FitProofs3.v
theories/FitProofs4.v
theories/LawProofs.v
theories/LawProofs2.v
theories/P_Fit.v
theories/P_Law.v
theories/IssueSpec.v
theories/IssueProofs.v
theories/P_Issue.v
theories/P_Json.v
theories/ScriptModel.v
theories/ScriptSpec.v
theories/ScriptProofs.v
theories/P_Script.v
theories/JsonTextModel.v
theories/JsonTextSpec.v
theories/JsonTextProofs.v
theories/JsonTextProofs2.v
theories/JsonTextProofs3.v
theories/P_JsonText.v
theories/ShowSpec.v
theories/ShowProofs.v
theories/ShowProofs2.v
theories/P_Show.v
theories/TxtSpec2.v
theories/TxtProofs4.v
theories/P_Tight.v
theories/TrimSpec.v
theories/TrimProofs.v
theories/P_Trim.v
theories/RunModel.v
theories/RunSpec.v
theories/RunProofs.v
theories/RunProofs2.v
theories/RunProofs3.v
theories/P_Run.v
theories/WorkModel.v
theories/WorkSpec.v
theories/WorkProofs.v
theories/WorkProofs2.v
theories/P_Work.v
theories/CiteSpec.v
theories/CiteProofs.v
theories/CiteProofs2.v
theories/CiteProofs3.v
theories/CiteProofs4.v
theories/CiteProofs5.v
theories/P_Cite.v
