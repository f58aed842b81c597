-Q theories Verif
theories/Nom.v
theories/Lex.v
theories/Ast.v
theories/Grammar.v
theories/Spec.v
theories/RunFacts.v
theories/Shapes.v
theories/LexFacts.v
theories/NumFacts.v
theories/TokFacts.v
theories/TermFacts.v
theories/Api.v
theories/ApiFacts.v
theories/LexProps.v
theories/Tok.v
theories/TokRun.v
theories/TokSound.v
theories/TokComplete.v
theories/TokMembers.v
theories/Shows.v
theories/Exact.v
theories/Print.v
theories/Nodes.v
theories/Items.v
theories/Cost.v
theories/Lexer.v
theories/Upper.v
theories/Linear.v
theories/Errors.v
theories/Bytes.v
theories/Utf8.v
theories/Ren.v
theories/Frag.v
theories/Stream.v
theories/Words.v
theories/Scan.v
theories/Data.v
theories/Order.v
theories/Size.v
theories/WebIDL.v
theories/Standard.v
theories/Relaxed.v
theories/Decide.v
theories/Extra.v
theories/Attr.v
theories/Concat.v
theories/Source.v
theories/Rust.v
theories/Crate.v
theories/Interp.v
theories/Embed.v
theories/Faithful.v
theories/SourceLex.v
theories/SourceTypes.v
theories/SourceProps.v
theories/SourceData.v
theories/SourceWt.v
theories/SourceOnto.v
theories/SourceFacts.v
theories/SourceDefs.v
theories/SourceTests.v
theories/SourceFiles.v
theories/SourceDocs.v
theories/SourceRegex.v
theories/SourceDecl.v
theories/SourceDecl2.v
theories/SourceOrder.v
theories/Live.v
theories/SourceDerive.v
theories/SourceHash.v
theories/SourceNames.v
theories/SourceHygiene.v
theories/Brackets.v
theories/SourceSlices.v
theories/SourceDepth.v
theories/Tests.v
theories/TestDefs.v
theories/Properties.v
