-Q theories Verif
theories/Base.v
theories/BaseFacts.v
theories/Model_Builder.v
theories/Model_Caches.v
theories/Model_CircularBuffer.v
theories/Model_Conditions.v
theories/Model_Date.v
theories/Model_Edition.v
theories/Model_Export.v
theories/Model_Font.v
theories/Model_Helpers.v
theories/Model_Mask.v
theories/Model_Names.v
theories/Model_Parse.v
theories/Model_Pool.v
theories/Model_Rewrites.v
theories/Model_Scanner.v
theories/Model_Tester.v
theories/Model_Tree.v
theories/Model_Words.v
theories/Proofs_Accept.v
theories/Proofs_Accept2.v
theories/Proofs_Again.v
theories/Proofs_Any.v
theories/Proofs_AnyReader.v
theories/Proofs_Beyond.v
theories/Proofs_Bisect.v
theories/Proofs_Broken.v
theories/Proofs_Build.v
theories/Proofs_Build10.v
theories/Proofs_Build2.v
theories/Proofs_Build3.v
theories/Proofs_Build4.v
theories/Proofs_Build5.v
theories/Proofs_Build6.v
theories/Proofs_Build7.v
theories/Proofs_Build8.v
theories/Proofs_Build9.v
theories/Proofs_Builder.v
theories/Proofs_Caches.v
theories/Proofs_Caches2.v
theories/Proofs_Caches3.v
theories/Proofs_Calls.v
theories/Proofs_Choices.v
theories/Proofs_CircularBuffer.v
theories/Proofs_Colors.v
theories/Proofs_ComputeRect.v
theories/Proofs_Conditions.v
theories/Proofs_Conditions2.v
theories/Proofs_Date.v
theories/Proofs_EdFailing.v
theories/Proofs_Edition.v
theories/Proofs_Edition2.v
theories/Proofs_Edition3.v
theories/Proofs_Encoder.v
theories/Proofs_Encoder2.v
theories/Proofs_Encoder3.v
theories/Proofs_Entropy.v
theories/Proofs_Evaluate.v
theories/Proofs_Export.v
theories/Proofs_Failing.v
theories/Proofs_Fans.v
theories/Proofs_Fans2.v
theories/Proofs_Flat.v
theories/Proofs_Font.v
theories/Proofs_Font2.v
theories/Proofs_Font3.v
theories/Proofs_Font4.v
theories/Proofs_Foreign.v
theories/Proofs_Format.v
theories/Proofs_Helpers.v
theories/Proofs_Kept.v
theories/Proofs_Layout.v
theories/Proofs_Meant.v
theories/Proofs_Meant2.v
theories/Proofs_Meant3.v
theories/Proofs_Names.v
theories/Proofs_Options.v
theories/Proofs_Order.v
theories/Proofs_Outputs.v
theories/Proofs_Oversize.v
theories/Proofs_Oversize2.v
theories/Proofs_Palettes.v
theories/Proofs_Parse.v
theories/Proofs_Parse2.v
theories/Proofs_Parse3.v
theories/Proofs_Parse4.v
theories/Proofs_Parse5.v
theories/Proofs_Parse6.v
theories/Proofs_Parse7.v
theories/Proofs_Parse8.v
theories/Proofs_Parse9.v
theories/Proofs_Parsed.v
theories/Proofs_Parsed2.v
theories/Proofs_Parsed3.v
theories/Proofs_Parsed4.v
theories/Proofs_Pool.v
theories/Proofs_Props.v
theories/Proofs_Raster.v
theories/Proofs_RasterExact.v
theories/Proofs_RasterHuge.v
theories/Proofs_Reader.v
theories/Proofs_Rewrites.v
theories/Proofs_Scan.v
theories/Proofs_Scanner.v
theories/Proofs_Scanner2.v
theories/Proofs_Scanner3.v
theories/Proofs_Sections.v
theories/Proofs_Steps.v
theories/Proofs_Sticky.v
theories/Proofs_Stored.v
theories/Proofs_Survive.v
theories/Proofs_Tail43.v
theories/Proofs_Tester.v
theories/Proofs_Tester10.v
theories/Proofs_Tester11.v
theories/Proofs_Tester12.v
theories/Proofs_Tester2.v
theories/Proofs_Tester3.v
theories/Proofs_Tester4.v
theories/Proofs_Tester5.v
theories/Proofs_Tester6.v
theories/Proofs_Tester7.v
theories/Proofs_Tester8.v
theories/Proofs_Tester9.v
theories/Proofs_TesterFans.v
theories/Proofs_TesterFans2.v
theories/Proofs_Texts.v
theories/Proofs_Tree.v
theories/Proofs_Tree2.v
theories/Proofs_Tree3.v
theories/Proofs_Tree4.v
theories/Proofs_Tree5.v
theories/Proofs_Typed.v
theories/Proofs_Valid65.v
theories/Proofs_Walk.v
theories/Proofs_WideCap.v
theories/Proofs_WidePeek.v
theories/Proofs_Wrapped.v
theories/Proofs_Zero.v
theories/Properties_Again.v
theories/Properties_AnyReader.v
theories/Properties_Beyond.v
theories/Properties_Bisect.v
theories/Properties_Broken.v
theories/Properties_Build.v
theories/Properties_Builder.v
theories/Properties_Caches.v
theories/Properties_Calls.v
theories/Properties_Choices.v
theories/Properties_CircularBuffer.v
theories/Properties_Colors.v
theories/Properties_Conditions.v
theories/Properties_Date.v
theories/Properties_Demands.v
theories/Properties_EdFailing.v
theories/Properties_Edition.v
theories/Properties_Entropy.v
theories/Properties_Evaluate.v
theories/Properties_Export.v
theories/Properties_Failing.v
theories/Properties_Fans.v
theories/Properties_Font.v
theories/Properties_Foreign.v
theories/Properties_Helpers.v
theories/Properties_Kept.v
theories/Properties_Mask.v
theories/Properties_Meant.v
theories/Properties_Meant2.v
theories/Properties_Names.v
theories/Properties_Options.v
theories/Properties_Outputs.v
theories/Properties_Oversize.v
theories/Properties_Oversize2.v
theories/Properties_Parse.v
theories/Properties_Parsed.v
theories/Properties_Parsed2.v
theories/Properties_Parsed3.v
theories/Properties_Pool.v
theories/Properties_Props.v
theories/Properties_RasterExact.v
theories/Properties_Reader.v
theories/Properties_Rewrites.v
theories/Properties_Scan.v
theories/Properties_Scanner.v
theories/Properties_Steps.v
theories/Properties_Sticky.v
theories/Properties_Stored.v
theories/Properties_Survive.v
theories/Properties_Tail43.v
theories/Properties_Tester.v
theories/Properties_TesterFans.v
theories/Properties_TesterSets.v
theories/Properties_Tree.v
theories/Properties_Valid65.v
theories/Properties_Walk.v
theories/Properties_WideCap.v
theories/Properties_WidePeek.v
theories/Properties_Wrapped.v
theories/Properties_Zero.v
theories/Sample.v
theories/Sample_Builder.v
theories/Spec_Accept.v
theories/Spec_Again.v
theories/Spec_Bisect.v
theories/Spec_Broken.v
theories/Spec_Build.v
theories/Spec_Builder.v
theories/Spec_Caches.v
theories/Spec_Calls.v
theories/Spec_Choices.v
theories/Spec_CircularBuffer.v
theories/Spec_Conditions.v
theories/Spec_Date.v
theories/Spec_Demands.v
theories/Spec_Edition.v
theories/Spec_EditionBuilder.v
theories/Spec_Entropy.v
theories/Spec_Evaluate.v
theories/Spec_Export.v
theories/Spec_Failing.v
theories/Spec_Fans.v
theories/Spec_Foreign.v
theories/Spec_Format.v
theories/Spec_Helpers.v
theories/Spec_Kept.v
theories/Spec_Layout.v
theories/Spec_LayoutFont.v
theories/Spec_Mask.v
theories/Spec_Meant.v
theories/Spec_Meant2.v
theories/Spec_Names.v
theories/Spec_Outputs.v
theories/Spec_Parse.v
theories/Spec_Parsed.v
theories/Spec_Props.v
theories/Spec_Reader.v
theories/Spec_Rules.v
theories/Spec_Scan.v
theories/Spec_Scanner.v
theories/Spec_Session.v
theories/Spec_Steps.v
theories/Spec_Sticky.v
theories/Spec_Survive.v
theories/Spec_Tester.v
theories/Spec_TesterFans.v
theories/Spec_TesterRules.v
theories/Spec_TesterSets.v
theories/Spec_Texts.v
theories/Spec_Tree.v
theories/Spec_TreeSets.v
theories/Spec_Walk.v
theories/Spec_WideCap.v
