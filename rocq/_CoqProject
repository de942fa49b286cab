-Q theories Verif
theories/Base.v
theories/Syntax.v
theories/MString.v
theories/Output.v
theories/Pieces.v
theories/Parser.v
theories/Api.v
theories/Vectors.v
theories/Utf8.v
theories/Wf.v
theories/PrintOk.v
theories/Lex.v
theories/Reject.v
theories/Number.v
theories/ParseOk.v
theories/Rel.v
theories/RelOut.v
theories/Safety.v
theories/Flags.v
theories/Thr.v
theories/Limits.v
theories/Step.v
theories/Show.v
theories/Md5.v
theories/Depth.v
theories/Format.v
theories/Literal.v
theories/StrLit.v
theories/LitRead.v
theories/Cost.v
theories/Short.v
theories/Grammar.v
theories/Den.v
theories/Emit.v
theories/Pend.v
theories/ReadAt.v
theories/Round.v
theories/RoundNames.v
theories/RoundTypes.v
theories/RoundBody.v
theories/RoundArgs.v
theories/RoundSyms.v
theories/RoundSpecials.v
theories/Trip.v
theories/Sound.v
theories/LitBack.v
theories/SoundNames.v
theories/SoundTypes.v
theories/SoundArgs.v
theories/NameRefs.v
theories/NumArr.v
theories/Members.v
theories/ParamRefs.v
theories/Mangle.v
theories/BadGrammar.v
theories/Bad.v
theories/Defects.v
theories/TemplateScope.v
theories/Specials.v
theories/SoundSyms.v
theories/Accepted.v
theories/Unique.v
theories/Prefix.v
theories/Trailing.v
theories/Less.v
theories/LessOut.v
theories/LessParse.v
theories/Suppress.v
theories/OutErr.v
theories/SameErr.v
theories/Verdict.v
theories/Budget.v
theories/Balance.v
theories/BalanceAll.v
theories/Effort.v
theories/Errors.v
theories/Distinct.v
theories/Amplify.v
theories/AmplifyMore.v
theories/Hidden.v
theories/Meter.v
theories/Metered.v
theories/MeterCost.v
theories/MeterShown.v
theories/MeterStore.v
theories/MeterScan.v
theories/Work.v
theories/AnyErr.v
theories/Decide.v
theories/Alike.v
theories/AlikeParse.v
theories/Opaque.v
theories/Lines.v
theories/Realloc.v
theories/ByteString.v
theories/Machine.v
theories/AllNames.v
theories/InnerNames.v
theories/Wording.v
theories/Whole.v
