-Q theories Verif
theories/Base.v
theories/Digits.v
theories/UtilsM.v
theories/SeqM.v
theories/SeqSpec.v
theories/SeqP.v
theories/SeqSubP.v
theories/SeqExpr.v
theories/SeqExprP.v
theories/ContextM.v
theories/CompilerM.v
theories/GrammarSpec.v
theories/CompilerP.v
theories/CompilerP2.v
theories/PatternP.v
theories/IntFormM.v
theories/FormatterM.v
theories/PropsCompile.v
theories/PropsSeq.v
theories/FmtSpec.v
theories/FmtP.v
theories/FmtP2.v
theories/GTable.v
theories/MathM.v
theories/DecimalM.v
theories/FPDecimalM.v
theories/DoubleM.v
theories/BigDecM.v
theories/RoundM.v
theories/TraitsM.v
theories/ImplM.v
theories/MiscM.v
theories/ImplP.v
theories/DirSpec.v
theories/ReadSpec.v
theories/ReadP.v
theories/CastP.v
theories/IntP.v
theories/PropsInt.v
theories/LoopSpec.v
theories/LoopP.v
theories/TameP.v
theories/PropsLoop.v
theories/MiscSpec.v
theories/MiscP.v
theories/ArgsM.v
theories/ArgsP.v
theories/PropsMisc.v
theories/ConcM.v
theories/ConcP.v
theories/PropsConc.v
theories/MathP.v
theories/GCheck.v
theories/CertTable.v
theories/CertCheck.v
theories/IrrCheck.v
theories/SchubM.v
theories/DecSpec.v
theories/RoundP.v
theories/ShortP.v
theories/SchubP.v
theories/PropsDouble.v
theories/FloatSpec.v
theories/FPDecP.v
theories/FloatP.v
theories/DoubleP.v
theories/HexP.v
theories/NearP.v
theories/FloatQ.v
theories/FloatArgP.v
theories/PropsFloat.v
theories/BigSpec.v
theories/AnnP.v
theories/TenP.v
theories/BigDecP.v
theories/BigGenP.v
theories/PropsBig.v
theories/WidthP.v
theories/PropsWidth.v
theories/BigFixP.v
theories/ValueSpec.v
theories/ValueP.v
theories/ValueP2.v
theories/PropsValue.v
theories/TextM.v
theories/TextSpec.v
theories/TextP.v
theories/PropsText.v
theories/ReadFSpec.v
theories/ReadFP.v
theories/ReadFP2.v
theories/ReadFP3.v
theories/PropsRead.v
theories/SinkM.v
theories/SinkSpec.v
theories/SinkP.v
theories/PropsSink.v
theories/ErrSpec.v
theories/ErrP.v
theories/DepthM.v
theories/DepthP.v
theories/PropsErr.v
theories/ApiP.v
theories/PropsApi.v
theories/SingleSpec.v
theories/SingleP.v
theories/PropsSingle.v
theories/BigReadP.v
theories/PropsBigRead.v
theories/ExactSpec.v
theories/ExactP.v
theories/PropsExact.v
theories/OrderSpec.v
theories/OrderP.v
theories/PropsOrder.v
theories/PropsSame.v
theories/BoundP.v
theories/PropsBound.v
theories/StarP.v
theories/PropsLimits.v
theories/CtxM.v
theories/CtxSpec.v
theories/CtxP.v
theories/PropsCtx.v
theories/MsgM.v
theories/MsgSpec.v
theories/MsgP.v
theories/PropsMsg.v
theories/ShowM.v
theories/PropsShow.v
theories/AliasM.v
theories/AliasSpec.v
theories/AliasP.v
theories/PropsAlias.v
theories/EffM.v
theories/EffSpec.v
theories/EffP.v
theories/PropsEff.v
theories/ScaleSpec.v
theories/ScaleP.v
theories/WholeSpec.v
theories/WholeP.v
theories/PropsWhole.v
theories/CharSpec.v
theories/CharP.v
theories/PropsChar.v
theories/NullM.v
theories/PropsNull.v
theories/DequeM.v
theories/PropsDeque.v
theories/PlatM.v
theories/PropsPlat.v
theories/TestVectors.v
theories/DescM.v
theories/DescSpec.v
theories/DescP.v
theories/PropsDesc.v
theories/FlagSpec.v
theories/FlagP.v
theories/PropsFlag.v
theories/SigSpec.v
theories/SigP.v
theories/PropsSig.v
theories/UserM.v
theories/UserSpec.v
theories/UserP.v
theories/PropsUser.v
theories/SerM.v
theories/PropsSer.v
theories/ViewM.v
theories/ViewSpec.v
theories/ViewP.v
theories/PropsView.v
theories/PartM.v
theories/PropsPart.v
theories/PropsReadme.v
theories/CompM.v
theories/CompSpec.v
theories/CompP.v
theories/PropsComp.v
theories/IterM.v
theories/IterSpec.v
theories/IterP.v
theories/PropsIter.v
theories/CountM.v
theories/CountSpec.v
theories/CountP.v
theories/PropsCount.v
theories/PropsAgree.v
theories/AgainCheck.v
theories/AgainP.v
theories/AgainSpec.v
theories/AgainP2.v
theories/AgainP3.v
theories/AgainP4.v
theories/PropsAgain.v
theories/LogP.v
theories/PropsLog.v
theories/ArrM.v
theories/ArrSpec.v
theories/PropsArr.v
theories/FormM.v
theories/PropsForm.v
theories/CsM.v
theories/CsSpec.v
theories/CsP.v
theories/PropsCs.v
theories/ScanSpec.v
theories/ScanP.v
theories/ScanP2.v
theories/ScanP3.v
theories/PropsScan.v
theories/PortSpec.v
theories/PortP.v
theories/PortP2.v
theories/PortP3.v
theories/PortP4.v
theories/PropsPort.v
theories/JavaSpec.v
theories/JavaP.v
theories/JavaP2.v
theories/JavaBigP.v
theories/JavaP3.v
theories/PropsJava.v
theories/IeeeSpec.v
theories/IeeeP.v
theories/IeeeP2.v
theories/IeeeP3.v
theories/PropsIeee.v
theories/CostM.v
theories/CostP.v
theories/PropsCost.v
theories/SeqErrM.v
theories/PropsSeqErr.v
theories/SeqCostM.v
theories/SeqCostP.v
theories/SeqCostP2.v
theories/PropsSeqCost.v
theories/InterSpec.v
theories/InterP.v
theories/InterP2.v
theories/InterP3.v
theories/InterE.v
theories/InterA.v
theories/InterP4.v
theories/PropsInter.v
theories/RepairM.v
theories/RepairSpec.v
theories/RepairP.v
theories/RepairP2.v
theories/RepairP3.v
theories/RepairP4.v
theories/DiffP.v
theories/RepairP5.v
theories/PropsRepair.v
theories/GlibcM.v
theories/GlibcSpec.v
theories/GlibcP.v
theories/GlibcP2.v
theories/GlibcP3.v
theories/GlibcP4.v
theories/GlibcP5.v
theories/PropsGlibc.v
theories/CacheM.v
theories/CacheP.v
theories/PropsCache.v
theories/ParseFixM.v
theories/ParseFixSpec.v
theories/ParseFixP.v
theories/PropsParseFix.v
theories/UtfFixM.v
theories/UtfFixSpec.v
theories/UtfFixP.v
theories/PropsUtfFix.v
theories/OwnSpec.v
theories/OwnP.v
theories/PropsOwn.v
theories/EdgeM.v
theories/PropsEdge.v
theories/MsgFixM.v
theories/MsgFixSpec.v
theories/PropsMsgFix.v
theories/PctM.v
theories/PctSpec.v
theories/PropsPct.v
theories/AliasFixM.v
theories/PropsAliasFix.v
theories/LazyFixM.v
theories/LazyFixSpec.v
theories/LazyFixP.v
theories/PropsLazyFix.v
theories/DeepM.v
theories/DeepSpec.v
theories/PropsDeep.v
theories/SerFixM.v
theories/PropsSerFix.v
theories/AdaptM.v
theories/PropsAdapt.v
theories/WrapM.v
theories/PropsWrap.v
