-Q theories Verif
theories/PyBase.v
theories/PyNum.v
theories/Lexer.v
theories/Values.v
theories/Ast.v
theories/Parser.v
theories/FloatSpec.v
theories/LexSpec.v
theories/Struct.v
theories/FloatProofs.v
theories/FloatLit.v
theories/LexProofs.v
theories/LexProofs2.v
theories/LexCase.v
theories/LexProps.v
theories/Grammar.v
theories/ParseProofs.v
theories/ParseProofs2.v
theories/Syntax.v
theories/PrintProofs.v
theories/ParseProps.v
theories/ParsePos.v
theories/Abnf.v
theories/AbnfProofs.v
theories/AbnfProofs2.v
theories/AbnfProofs3.v
theories/AbnfProps.v
theories/AbsProofs.v
theories/Symbols.v
theories/Interp.v
theories/EvalSpec.v
theories/EvalProofs.v
theories/EvalProofs2.v
theories/EvalProps.v
theories/SymbolProps.v
theories/TypeCheck.v
theories/TypeSpec.v
theories/TypeProofs.v
theories/TypeProps.v
theories/AstCodec.v
theories/BytesProofs.v
theories/CodecSpec.v
theories/CodecProofs.v
theories/CodecProofs2.v
theories/CodecProps.v
theories/AttCert.v
theories/CertSpec.v
theories/CertProofs.v
theories/CertProofs2.v
theories/CertProofs3.v
theories/CertProps.v
theories/CertProps2.v
theories/CertProps3.v
theories/Errors.v
theories/Diag.v
theories/DiagProofs.v
theories/DiagSpec.v
theories/DiagProofs2.v
theories/DiagProofs3.v
theories/DiagProofs4.v
theories/DiagProps.v
theories/LexDiag.v
theories/LexDiagSpec.v
theories/LexDiagProofs.v
theories/LexDiagProofs2.v
theories/LexDiagProps.v
theories/ErrorProps.v
theories/Config.v
theories/ConfigProps.v
theories/PAuth.v
theories/PAuthSpec.v
theories/PAuthProofs.v
theories/PAuthProps.v
theories/AAuth.v
theories/AAuthSpec.v
theories/AAuthProofs.v
theories/AAuthProps.v
theories/EndProps.v
theories/TreeProps.v
theories/Logging.v
theories/LoggingProps.v
theories/Database.v
theories/Tools.v
theories/Clients.v
theories/DatabaseProps.v
theories/ToolsProps.v
theories/ToolsProps2.v
theories/ClientsProps.v
theories/Demo.v
theories/DemoProofs.v
theories/DemoProps.v
theories/DemoCases.v
theories/AAuthDemo.v
theories/AAuthDemoProofs.v
theories/AAuthDemoProps.v
theories/AAuthDemoProps2.v
theories/AAuthDemoCases.v
theories/Show.v
theories/ShowSpec.v
theories/ShowProofs.v
theories/ShowProofs2.v
theories/ShowProofs3.v
theories/ShowProps.v
theories/ShownProps.v
theories/TypeDiag.v
theories/TypeDiagSpec.v
theories/TypeDiagProofs.v
theories/TypeDiagProps.v
theories/InterpDiag.v
theories/InterpDiagSpec.v
theories/InterpDiagProofs.v
theories/InterpDiagProps.v
theories/AAuthLog.v
theories/AAuthLogSpec.v
theories/AAuthLogProofs.v
theories/BytesRepr.v
theories/AAuthLogProps.v
theories/PAuthLog.v
theories/PAuthLogSpec.v
theories/PAuthLogProofs.v
theories/PAuthLogProofs2.v
theories/PAuthLogProps.v
theories/ToolsLog.v
theories/ToolsLogProps.v
theories/ClientsLog.v
theories/ClientsLogProps.v
theories/RepoTests.v
theories/Ini.v
theories/IniSpec.v
theories/IniProofs.v
theories/IniProps.v
theories/System.v
theories/SystemProps.v
theories/CoverSpec.v
theories/CoverProofs.v
theories/CoverProps.v
theories/LawSpec.v
theories/LawProps.v
theories/NamedProps.v
theories/LoadProps.v
theories/Issue.v
theories/IssueProps.v
theories/SymRepr.v
theories/SymReprProps.v
theories/PyTests.v
