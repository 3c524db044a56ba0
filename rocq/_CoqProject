-Q theories Verif
theories/Model/Go.v
theories/Model/Types.v
theories/Model/RawParse.v
theories/Model/Signer.v
theories/Model/Sha256.v
theories/Spec/ParseSpec.v
theories/Spec/SignSpec.v
theories/Proofs/GoFacts.v
theories/Proofs/ParseFacts.v
theories/Proofs/SignFacts.v
theories/Proofs/ShaFacts.v
theories/Conform/LineDecoder.v
theories/Conform/SignerCases.v
theories/Proofs/SignMore.v
theories/Props/Parse.v
theories/Props/Sign.v
theories/Model/Cond.v
theories/Model/Lint.v
theories/Spec/CondSpec.v
theories/Spec/LintSpec.v
theories/Conform/SimpleGlob.v
theories/Conform/Pipelines.v
theories/Proofs/CondFacts.v
theories/Proofs/LintFacts.v
theories/Props/Cond.v
theories/Props/Lint.v
theories/Model/Image.v
theories/Model/Dind.v
theories/Spec/ImageSpec.v
theories/Proofs/ImageFacts.v
theories/Props/Image.v
theories/Model/Engine.v
theories/Model/Quote.v
theories/Model/Path.v
theories/Model/Encode.v
theories/Model/Script.v
theories/Model/Compiler.v
theories/Spec/ScriptSpec.v
theories/Spec/CompileSpec.v
theories/Conform/Worlds.v
theories/Proofs/MapFacts.v
theories/Spec/SettingSpec.v
theories/Proofs/CpuFacts.v
theories/Proofs/CompileMore.v
theories/Proofs/ScriptFacts.v
theories/Proofs/CompilePure.v
theories/Proofs/CompileFacts.v
theories/Proofs/CompileSteps.v
theories/Proofs/CompileWhole.v
theories/Proofs/CompileGraph.v
theories/Props/Compile.v
theories/Props/CompileMore.v
theories/Model/Rand.v
theories/Model/Transform.v
theories/Spec/TransformSpec.v
theories/Spec/NameSpec.v
theories/Proofs/TransformFacts.v
theories/Proofs/RandFacts.v
theories/Proofs/PathFacts.v
theories/Props/Transform.v
theories/Props/Names.v
theories/Model/Decode.v
theories/Spec/DecodeSpec.v
theories/Proofs/DecodeFacts.v
theories/Proofs/DecodeMore.v
theories/Props/Decode.v
theories/Model/Matrix.v
theories/Spec/MatrixSpec.v
theories/Proofs/MatrixFacts.v
theories/Props/Matrix.v
theories/Model/Legacy.v
theories/Spec/LegacySpec.v
theories/Proofs/LegacyFacts.v
theories/Proofs/SubstFacts.v
theories/Proofs/LegacyMore.v
theories/Conform/LegacyCases.v
theories/Props/Legacy.v
theories/Model/Gitlab.v
theories/Model/Bitbucket.v
theories/Model/Convert.v
theories/Spec/ConverterSpec.v
theories/Proofs/ConverterFacts.v
theories/Props/Converter.v
theories/Model/Pretty.v
theories/Spec/YamlSpec.v
theories/Spec/PrettySpec.v
theories/Spec/LayoutSpec.v
theories/Spec/TreeSpec.v
theories/Proofs/PrettyTree.v
theories/Proofs/PrettyLayout.v
theories/Proofs/PrettyItems.v
theories/Proofs/YamlFacts.v
theories/Proofs/YamlStrings.v
theories/Proofs/YamlDocs.v
theories/Proofs/PrettyRound.v
theories/Proofs/PrettyTrip.v
theories/Proofs/PrettyMore.v
theories/Proofs/PrettySame.v
theories/Proofs/PrettyText.v
theories/Proofs/PrettyClaims.v
theories/Props/Pretty.v
theories/Conform/PrettyCases.v
theories/Model/Main.v
theories/Spec/MainSpec.v
theories/Proofs/MainFacts.v
theories/Proofs/MainCompile.v
theories/Conform/Machines.v
theories/Props/Main.v
theories/Spec/ForeignSpec.v
theories/Proofs/ForeignFacts.v
theories/Props/Foreign.v
theories/Model/Json.v
theories/Spec/JsonSpec.v
theories/Proofs/JsonFacts.v
theories/Proofs/JsonWrite.v
theories/Proofs/JsonPanic.v
theories/Proofs/JsonRound.v
theories/Conform/JsonCases.v
theories/Props/Json.v
theories/Model/Emit.v
theories/Spec/EmitSpec.v
theories/Proofs/EmitFacts.v
theories/Conform/EmitCases.v
theories/Props/Emit.v
theories/Model/Units.v
theories/Spec/UnitsSpec.v
theories/Proofs/UnitsFacts.v
theories/Proofs/UnitsPrint.v
theories/Proofs/UnitsTrip.v
theories/Proofs/UnitsClaims.v
theories/Conform/UnitsCases.v
theories/Props/Units.v
theories/Spec/FormatSpec.v
theories/Proofs/FormatFacts.v
theories/Proofs/QuoteNeed.v
theories/Proofs/FormatClaims.v
theories/Props/Format.v
theories/Model/Glob.v
theories/Spec/GlobSpec.v
theories/Proofs/GlobFacts.v
theories/Proofs/GlobItems.v
theories/Proofs/GlobMatch.v
theories/Proofs/GlobClaims.v
theories/Proofs/GlobForm.v
theories/Props/Glob.v
theories/Conform/GlobCases.v
theories/Model/Url.v
theories/Spec/UrlSpec.v
theories/Proofs/UrlFacts.v
theories/Proofs/UrlClaims.v
theories/Props/Url.v
theories/Conform/UrlCases.v
theories/Model/DoubleStar.v
theories/Spec/DoubleStarSpec.v
theories/Proofs/DoubleStarFacts.v
theories/Proofs/DoubleStarMatch.v
theories/Proofs/DoubleStarClaims.v
theories/Props/DoubleStar.v
theories/Conform/DoubleStarCases.v
theories/Proofs/TriggerFacts.v
theories/Props/Triggers.v
theories/Spec/AcceptedSpec.v
theories/Proofs/AcceptedFacts.v
theories/Props/Accepted.v
theories/Proofs/LintFormat.v
theories/Props/Formatted.v
theories/Spec/ConvertedSpec.v
theories/Proofs/LegacyLint.v
theories/Proofs/ConvertLint.v
theories/Conform/ConvertCases.v
theories/Props/Converted.v
theories/Spec/ReorderSpec.v
theories/Proofs/Reorder.v
theories/Proofs/ReorderMore.v
theories/Props/Reorder.v
theories/Spec/SignedSpec.v
theories/Proofs/SignFormat.v
theories/Proofs/SignMain.v
theories/Props/Signed.v
theories/Spec/LegacyRunSpec.v
theories/Proofs/LegacyRun.v
theories/Proofs/LegacyMain.v
theories/Props/LegacyRun.v
theories/Spec/ForeignRunSpec.v
theories/Proofs/ForeignRun.v
theories/Proofs/ForeignMain.v
theories/Props/ForeignRun.v
theories/Spec/AgainSpec.v
theories/Spec/SealedSpec.v
theories/Proofs/MarginLines.v
theories/Proofs/Again.v
theories/Proofs/Sealed.v
theories/Conform/AgainCases.v
theories/Conform/SealedCases.v
theories/Props/Again.v
theories/Props/Sealed.v
theories/Spec/AppendSpec.v
theories/Proofs/Append.v
theories/Props/Append.v
theories/Spec/IgnoredSpec.v
theories/Proofs/Ignored.v
theories/Conform/IgnoredCases.v
theories/Props/Ignored.v
theories/Spec/OrderSpec.v
theories/Proofs/Order.v
theories/Props/Order.v
theories/Spec/FilterSpec.v
theories/Proofs/Filter.v
theories/Props/Filter.v
theories/Spec/CrashSpec.v
theories/Proofs/Crash.v
theories/Proofs/CrashMain.v
theories/Conform/CrashCases.v
theories/Props/Crash.v
theories/Spec/RuleSpec.v
theories/Proofs/Rules.v
theories/Props/Rules.v
theories/Spec/GrowSpec.v
theories/Proofs/Grow.v
theories/Props/Grow.v
theories/Spec/AlikeSpec.v
theories/Proofs/Alike.v
theories/Props/Alike.v
theories/Spec/SubSpec.v
theories/Proofs/SubLint.v
theories/Props/Sub.v
theories/Spec/CredentialSpec.v
theories/Proofs/Credential.v
theories/Conform/CredentialCases.v
theories/Props/Credential.v
theories/Spec/BuildSpec.v
theories/Proofs/BuildFlags.v
theories/Conform/BuildCases.v
theories/Props/Build.v
theories/Spec/NamesSpec.v
theories/Proofs/Renamed.v
theories/Props/Renamed.v
theories/Spec/TitleSpec.v
theories/Proofs/Titled.v
theories/Props/Titled.v
theories/Spec/VolumeNameSpec.v
theories/Proofs/VolumeNames.v
theories/Props/VolumeNames.v
theories/Spec/SecretNameSpec.v
theories/Proofs/SecretNames.v
theories/Props/SecretNames.v
