-Q theories Verif
theories/Machine.v
theories/Sig.v
theories/Ieee.v
theories/Parse.v
theories/Fmt.v
theories/Ppc.v
theories/Ops.v
theories/SpecSig.v
theories/Limbs.v
theories/SigProofs.v
theories/SigProofs2.v
theories/SigProofs3.v
theories/SigProofs4.v
theories/SigProofs5.v
theories/Spec.v
theories/Norm.v
theories/Arith.v
theories/Special.v
theories/Order.v
theories/Bits.v
theories/Formats.v
theories/Int.v
theories/Scale.v
theories/Next.v
theories/Convert.v
theories/Integral.v
theories/Rem.v
theories/Fma.v
theories/Algebra.v
theories/Laws.v
theories/Orderx.v
theories/Classes.v
theories/Total.v
theories/SpecFma.v
theories/FmaFull.v
theories/FmaExact.v
theories/Nans.v
theories/SpecPair.v
theories/Pair.v
theories/PairOps.v
theories/PairBase.v
theories/SpecStr.v
theories/StrHex.v
theories/StrScan.v
theories/StrSyntax.v
theories/StrNum.v
theories/StrAtt.v
theories/StrCell.v
theories/StrErr.v
theories/StrDec.v
theories/StrLoop.v
theories/StrDecimal.v
theories/StrTop.v
theories/PairMore.v
theories/PairConst.v
theories/FmtNum.v
theories/SpecFmt.v
theories/FmtTop.v
theories/FmtBack.v
theories/PairFmt.v
theories/TwoSum.v
theories/PairAdd.v
theories/PairMul.v
theories/OpsSpec.v
theories/Reach.v
theories/StrSamples.v
theories/Samples.v
theories/Through.v
theories/Symmetry.v
theories/BitOrder.v
theories/Eft.v
theories/Flocq754.v
theories/FlocqBits.v
theories/FlocqSamples.v
theories/Refute.v
theories/StrRefute.v
theories/StrLong.v
theories/StrFar.v
theories/PairSamples.v
theories/PairTests.v
theories/IeeeTests.v
theories/IeeeTests2.v
theories/PairRefute.v
theories/PairMulRefute.v
theories/FmtEdge.v
theories/FmtExact.v
theories/FmtRefute.v
theories/PropsSig.v
theories/More.v
theories/PropsBits.v
theories/PropsArith.v
theories/PropsSpecial.v
theories/PropsOrder.v
theories/PropsInt.v
theories/PropsRem.v
theories/PropsScale.v
theories/PropsNext.v
theories/PropsConvert.v
theories/PropsIntegral.v
theories/FmaMono.v
theories/FmaSymmetry.v
theories/PropsLaws.v
theories/PropsTotal.v
theories/PropsStr.v
theories/PropsPair.v
theories/PropsFmt.v
theories/PairRest.v
theories/PairFlags.v
theories/PropsPairMore.v
theories/PairTotal.v
theories/PropsPairArith.v
theories/PropsPairTotal.v
theories/AnySum.v
theories/SpecDirected.v
theories/PairDirected.v
theories/PairDirectedRefute.v
theories/PropsPairDirected.v
theories/AnyProd.v
theories/PairSmall.v
theories/PropsPairSmall.v
theories/SpecTop.v
theories/TopSum.v
theories/PairTop.v
theories/PairTopMul.v
theories/PairTopSamples.v
theories/PropsPairTop.v
theories/SpecPairLaws.v
theories/PairLaws.v
theories/PairLawsTop.v
theories/PropsPairLaws.v
theories/SpecRewrites.v
theories/Rewrites.v
theories/PropsRewrites.v
theories/OpsPair.v
theories/OpsPairSpec.v
theories/OpsPairTop.v
theories/PropsOps.v
theories/PropsOpsPair.v
theories/PropsOpsPairTop.v
theories/PropsThrough.v
theories/PropsBitOrder.v
theories/PropsEft.v
theories/PropsFlocq.v
theories/SpecPrograms.v
theories/Programs.v
theories/PropsPrograms.v
theories/SpecExpr.v
theories/Expr.v
theories/Interval.v
theories/Sum.v
theories/PropsClients.v
theories/ExprError.v
theories/PropsErrors.v
theories/SpecPairExpr.v
theories/PairQuot.v
theories/PairExpr.v
theories/PropsPairExpr.v
theories/Loops.v
theories/PropsLoops.v
theories/Compensated.v
theories/PropsCompensated.v
theories/Bisect.v
theories/PropsBisect.v
theories/Sort.v
theories/PropsSort.v
theories/Widening.v
theories/PropsWidening.v
theories/StatusDoc.v
theories/PropsStatus.v
theories/Table.v
theories/PropsTable.v
theories/Release.v
theories/ReleaseTop.v
theories/ReleaseProofs.v
theories/ReleaseEq.v
theories/ReleaseMore.v
theories/PropsRelease.v
theories/DecBack.v
theories/PropsDec.v
theories/SpecInteger.v
theories/IntExpr.v
theories/PairInt.v
theories/PropsInteger.v
theories/PairNext.v
theories/PropsPairNext.v
theories/Dekker.v
theories/PropsDekker.v
theories/TextOrder.v
theories/PropsTextOrder.v
theories/LibFun.v
theories/PropsLibFun.v
theories/Sqrt.v
theories/PropsSqrt.v
theories/BitTricks.v
theories/PropsBitTricks.v
theories/Expansion.v
theories/Fsum.v
theories/PropsExpansion.v
theories/Outcomes.v
theories/PropsOutcomes.v
theories/Lerp.v
theories/PropsLerp.v
