-Q theories Verif
theories/Text.v
theories/TextFacts.v
theories/TokenModel.v
theories/TokenSpec.v
theories/TokenProofs.v
theories/TokenProofs2.v
theories/TokenProofs3.v
theories/PropsToken.v
theories/AlignModel.v
theories/AlignSpec.v
theories/AlignBytes.v
theories/AlignTrace.v
theories/AlignEmit.v
theories/AlignProofs.v
theories/PropsAlign.v
theories/NbestModel.v
theories/NbestSpec.v
theories/NbestStream.v
theories/NbestSearch.v
theories/NbestProofs.v
theories/NbestMap.v
theories/NbestFloat.v
theories/NbestWitness.v
theories/PropsNbest.v
theories/CacheModel.v
theories/JsonSpec.v
theories/JsonModel.v
theories/JsonProofs.v
theories/JsonDict.v
theories/CacheSpec.v
theories/CacheRG.v
theories/CacheInv.v
theories/CacheLoad.v
theories/CacheJson.v
theories/CacheSeq.v
theories/CacheSeq2.v
theories/CacheSeq3.v
theories/CacheConc.v
theories/CacheLive.v
theories/CacheProofs.v
theories/CacheRun.v
theories/CacheWitness.v
theories/PropsCache.v
theories/StoreModel.v
theories/StoreSpec.v
theories/StorePath.v
theories/StoreFinger.v
theories/StoreHome.v
theories/PropsStore.v
theories/FileSpec.v
theories/FileProofs.v
theories/LockModel.v
theories/LockSpec.v
theories/LockProofs.v
theories/PropsFile.v
theories/CppModel.v
theories/CppSpec.v
theories/CppProofs.v
theories/CppString.v
theories/CppAgree.v
theories/PipelineModel.v
theories/PropsCpp.v
theories/CliModel.v
theories/CliSpec.v
theories/CliProofs.v
theories/PropsCli.v
theories/Fst.v
theories/GrammarModel.v
theories/GrammarSpec.v
theories/FstFacts.v
theories/PropsGrammar.v
theories/DataZhTn.v
theories/DataZhItn.v
theories/DataJaTn.v
theories/DataJaItn.v
theories/ZhTnModel.v
theories/FstRun.v
theories/NumeralSpec.v
theories/ZhNumberProofs.v
theories/ZhNumberProofs2.v
theories/ZhNumberProofs3.v
theories/ZhNumberProofs4.v
theories/PropsNumber.v
theories/GrammarShape.v
theories/ZhTnShape.v
theories/ZhItnModel.v
theories/JaTnModel.v
theories/JaItnModel.v
theories/ZhItnShape.v
theories/JaTnShape.v
theories/JaItnShape.v
theories/ShapeSpec.v
theories/PropsShape.v
theories/GrammarAccept.v
theories/ZhTnAccept.v
theories/ZhItnAccept.v
theories/JaTnAccept.v
theories/JaItnAccept.v
theories/FstEval.v
theories/EngineSpec.v
theories/GrammarEngine.v
theories/DataEnItn.v
theories/EnItnModel.v
theories/SpacedShape.v
theories/EnItnShape.v
theories/EnItnAccept.v
theories/PropsTotal.v
theories/PropsEnItn.v
theories/EngineFull.v
theories/PropsTagVerbalize.v
theories/DataEnTn.v
theories/EnTnModel.v
theories/EnglishSpec.v
theories/EnTnShape.v
theories/EnTnAccept.v
theories/PropsEnTn.v
theories/EnglishNumeralSpec.v
theories/EnNumberProofs.v
theories/EnNumberProofs2.v
theories/EnNumberProofs3.v
theories/EnNumberProofs4.v
theories/EnNumberProofs5.v
theories/PropsEnNumber.v
theories/EnglishSpokenSpec.v
theories/EnSpokenProofs.v
theories/EnSpokenProofs2.v
theories/EnSpokenProofs3.v
theories/EnSpokenProofs4.v
theories/EnSpokenProofs5.v
theories/PropsEnSpoken.v
theories/EnglishOrdinalSpec.v
theories/EnItnVerbal.v
theories/EnOrdinalProofs.v
theories/PropsEnOrdinal.v
theories/ZhSpokenSpec.v
theories/ZhSpokenProofs.v
theories/ZhSpokenProofs2.v
theories/ZhSpokenProofs3.v
theories/ZhSpokenProofs4.v
theories/ZhSpokenProofs5.v
theories/TokenVerbal.v
theories/ZhItnVerbal.v
theories/ZhSpokenProofs6.v
theories/ZhBack.v
theories/PropsZhSpoken.v
theories/EndToEnd.v
theories/Apart.v
theories/ZhItnTag.v
theories/ZhItnTag2.v
theories/ZhBack2.v
theories/PropsZhEnd.v
theories/BoundarySpec.v
theories/TokenRun.v
theories/Boundary.v
theories/BoundaryRules.v
theories/BoundaryEngine.v
theories/BoundaryChar.v
theories/PlainSpec.v
theories/PlainChar.v
theories/PlainRules.v
theories/BoundaryLaw.v
theories/BoundaryLawProofs.v
theories/PropsBoundary.v
theories/Letters.v
theories/OneToken.v
theories/ZhTnEndSpec.v
theories/ZhTnRead.v
theories/ZhTnTag.v
theories/ZhTnTag2.v
theories/ZhTnPost.v
theories/PropsZhTnEnd.v
theories/WholeSpec.v
theories/Whole.v
theories/PropsWhole.v
theories/Fields.v
theories/ZhWhole.v
theories/ZhDateSpec.v
theories/ZhDate.v
theories/ZhDate2.v
theories/PropsZhDate.v
theories/ZhAmountSpec.v
theories/ZhAmount.v
theories/ZhMoney.v
theories/ZhTime.v
theories/PropsZhAmount.v
theories/JaNumeralSpec.v
theories/JaNumber.v
theories/JaNumber2.v
theories/JaPost.v
theories/JaApart.v
theories/JaDate.v
theories/JaDate2.v
theories/JaDate3.v
theories/PropsJaDate.v
theories/JaTnRead.v
theories/JaTnRead2.v
theories/PropsJaNumber.v
theories/JaAmountSpec.v
theories/JaFraction.v
theories/JaHead.v
theories/JaMoney.v
theories/JaTime.v
theories/JaTime2.v
theories/JaTime3.v
theories/PropsJaAmount.v
theories/JaSpoken.v
theories/JaSpoken2.v
theories/JaSpoken3.v
theories/JaSpoken4.v
theories/JaItnSaid.v
theories/JaTen.v
theories/PropsJaSpoken.v
theories/JaUnit.v
theories/PropsJaOrdinal.v
theories/JaMeasure.v
theories/PropsJaMeasure.v
theories/Fields2.v
theories/PropsJaItnMoney.v
theories/JaItnDate.v
theories/PropsJaItnDate.v
theories/PropsJaItnFraction.v
theories/PropsJaItnTime.v
theories/JaRound.v
theories/PropsJaRound.v
theories/Least.v
theories/ZhItnSaid.v
theories/ZhItnDateSpec.v
theories/ZhItnDate.v
theories/ZhItnDate2.v
theories/PropsZhItnDate.v
theories/ZhItnPercent.v
theories/PropsZhItnPercent.v
theories/ZhItnFraction.v
theories/ZhItnFraction2.v
theories/PropsZhItnFraction.v
theories/ZhItnPlateSpec.v
theories/ZhItnPlate.v
theories/PropsZhItnPlate.v
theories/ZhItnDigits.v
theories/PropsZhItnDigits.v
theories/GrammarWitness.v
