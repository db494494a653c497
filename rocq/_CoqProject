-Q theories Verif
theories/Base.v
theories/UnicodeTables.v
theories/Utf8.v
theories/Regex.v
theories/Types.v
theories/Consts.v
theories/ConstsFacts.v
theories/Normalize.v
theories/Validate.v
theories/Format.v
theories/Parse.v
theories/Container.v
theories/MetadataData.v
theories/ShortData.v
theories/AltData.v
theories/Shipped.v
theories/Builder.v
theories/TestXml.v
theories/ConformanceBase.v
theories/Conformance.v
theories/BaseFacts.v
theories/UnicodeSpec.v
theories/Utf8Facts.v
theories/NormalizeSpec.v
theories/NormalizeFacts.v
theories/PropsNormalize.v
theories/NumberSpec.v
theories/NumberFacts.v
theories/PropsNumber.v
theories/RegexSpec.v
theories/RegexFacts.v
theories/MetaSpec.v
theories/ValidateSpec.v
theories/ValidateFacts.v
theories/MetaFacts.v
theories/PropsValidate.v
theories/FormatSpec.v
theories/TextFacts.v
theories/FormatFacts.v
theories/FormatMore.v
theories/PropsFormat.v
theories/LangFacts.v
theories/ParseSpec.v
theories/ParseFacts.v
theories/ParseMore.v
theories/ContextFacts.v
theories/PropsParse.v
theories/ShortNumber.v
theories/ShippedShort.v
theories/ConformanceShort.v
theories/ShortSpec.v
theories/ShortFacts.v
theories/ShortMeta.v
theories/PropsShort.v
theories/PropsTotal.v
theories/Serialize.v
theories/PrefixMapper.v
theories/MetaBuild.v
theories/PrefixData.v
theories/TableSpec.v
theories/TableFacts.v
theories/PrefixFacts.v
theories/SourceFacts.v
theories/ShippedTz.v
theories/PropsTable.v
theories/StringBuilder.v
theories/BuilderSpec.v
theories/PropsBuilder.v
theories/RegexCache.v
theories/CacheFacts.v
theories/PropsCache.v
theories/Concurrency.v
theories/PropsConc.v
theories/BuildSpec.v
theories/Regions.v
theories/PropsBuild.v
theories/AsYouType.v
theories/ConformanceAytf.v
theories/AytfSpec.v
theories/RegexGrow.v
theories/AytfFacts.v
theories/AytfMore.v
theories/AytfDigits.v
theories/PropsAytf.v
theories/Matcher.v
theories/ConformanceMatcher.v
theories/MatcherSpec.v
theories/MatcherFacts.v
theories/MatcherRun.v
theories/MatcherTotal.v
theories/MatcherIter.v
theories/PropsMatcher.v
theories/RoundSpec.v
theories/DerivFacts.v
theories/RoundTripFacts.v
theories/PropsRound.v
theories/QuerySpec.v
theories/QueryFacts.v
theories/PropsQuery.v
theories/RuleSpec.v
theories/RuleFacts.v
theories/RuleMore.v
theories/PropsRule.v
theories/ReadSpec.v
theories/ReadFacts.v
theories/ReadMore.v
theories/PropsRead.v
theories/ExtSpec.v
theories/ExtFacts.v
theories/BackFacts.v
theories/PropsBack.v
theories/DialSpec.v
theories/DialFacts.v
theories/PropsDial.v
theories/Session.v
theories/PropsSession.v
theories/NationalFacts.v
theories/NationalMore.v
theories/PropsNational.v
theories/FindSpec.v
theories/FindFacts.v
theories/FindMore.v
theories/FindPrint.v
theories/FindShip.v
theories/PropsFind.v
theories/MatchFacts.v
theories/PropsMatch.v
theories/LenientSpec.v
theories/LenientFacts.v
theories/LenientMore.v
theories/LenientShip.v
theories/PropsLenient.v
theories/NeverSpec.v
theories/NeverFacts.v
theories/NeverMore.v
theories/PropsNever.v
theories/ShowFacts.v
theories/ShowShip.v
theories/ShowMore.v
theories/ShowRun.v
theories/PropsShow.v
theories/PosSpec.v
theories/PosFacts.v
theories/PropsPos.v
theories/RegionFacts.v
theories/PropsRegion.v
theories/AlphaSpec.v
theories/AlphaFacts.v
theories/ViableSpec.v
theories/ViableFacts.v
theories/PropsAlpha.v
theories/ExtensionSpec.v
theories/ExtensionFacts.v
theories/PropsExtension.v
theories/NatSpec.v
theories/NatFacts.v
theories/NatRun.v
theories/NatShip.v
theories/PropsNat.v
theories/PropsPlace.v
theories/TerritorySpec.v
theories/PropsTerritory.v
theories/IddSpec.v
theories/IddRun.v
theories/IddShip.v
theories/PropsIdd.v
theories/PropsShortTable.v
theories/PropsHistory.v
theories/OutFacts.v
theories/PropsOut.v
theories/PropsMobile.v
theories/PropsRetype.v
theories/PropsNanpa.v
theories/FileSpec.v
theories/PropsFile.v
theories/PropsCut.v
