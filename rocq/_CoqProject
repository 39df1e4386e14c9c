-Q theories Verif
theories/Base.v
theories/Float.v
theories/Vector.v
theories/Stats.v
theories/Quaternion.v
theories/TestEnv.v
theories/Spec.v
theories/F32Lemmas.v
theories/BitLemmas.v
theories/P_Bits.v
theories/P_Trunc.v
theories/P_Floor.v
theories/Literals.v
theories/P_RoundEdge.v
theories/Props_Round.v
theories/P_Euclid.v
theories/P_Roots.v
theories/P_InvSqrt.v
theories/Props_Roots.v
theories/RealBounds.v
theories/Constants.v
theories/ErrLemmas.v
theories/P_Recip.v
theories/NanLemmas.v
theories/Props_Recip.v
theories/P_Vector.v
theories/P_VecInt.v
theories/P_SumSq.v
theories/P_VecF32.v
theories/Props_Vector.v
theories/P_Stats.v
theories/Props_Stats.v
theories/QuatReal.v
theories/P_Quat.v
theories/P_Quat2.v
theories/Props_Quat.v
theories/RealBounds2.v
theories/P_Trig.v
theories/P_Atan.v
theories/P_Atan2.v
theories/AngleReal.v
theories/P_TrigEdge.v
theories/P_Asin.v
theories/Props_Trig.v
theories/RealBounds3.v
theories/P_Ln.v
theories/Props_Log.v
theories/RealBounds4.v
theories/P_Exp.v
theories/P_Cosh.v
theories/Props_Exp.v
theories/P_Powf.v
theories/RealBounds5.v
theories/Props_Powf.v
theories/P_Powi.v
theories/P_Powi2.v
theories/P_Powi3.v
theories/Props_Powi.v
theories/P_Euler.v
theories/Props_Euler.v
theories/F32Ext.v
theories/P_Ext.v
theories/Props_Ext.v
theories/F32Wrap.v
theories/SpecOps.v
theories/P_Wrap.v
theories/Props_Wrap.v
theories/RealBounds6.v
theories/P_Order.v
theories/P_Order2.v
theories/Props_Order.v
theories/UnitTests.v
theories/SpecQuat.v
theories/P_Quat3.v
theories/P_Quat4.v
theories/Props_Quat2.v
theories/SpecMore.v
theories/P_Stats2.v
theories/P_AxisAngle.v
theories/Props_Stats2.v
theories/Props_AxisAngle.v
theories/P_RoundOrder.v
theories/Props_RoundOrder.v
theories/P_RoundTrip.v
theories/Props_RoundTrip.v
theories/P_Symmetry.v
theories/Props_Symmetry.v
theories/P_Exact.v
theories/Props_Exact.v
theories/P_Sharp.v
theories/Props_Sharp.v
theories/P_Tiny.v
theories/Props_Tiny.v
theories/P_Stats3.v
theories/Props_Stats3.v
theories/P_Scale.v
theories/P_Scale2.v
theories/P_Scale3.v
theories/P_Scale4.v
theories/Props_Scale.v
theories/SpecSym.v
theories/P_Sign.v
theories/Props_Sign.v
theories/P_Mono.v
theories/Props_Mono.v
theories/P_Trim.v
theories/Props_Trim.v
theories/P_Powi4.v
theories/Props_Powi4.v
theories/SpecVec.v
theories/P_Dot.v
theories/Props_Dot.v
theories/P_Quat5.v
theories/Props_Quat5.v
theories/SpecTrig.v
theories/P_TrigMono.v
theories/Props_TrigMono.v
theories/P_AtanMono.v
theories/Props_AtanMono.v
theories/RealBounds7.v
theories/P_LnMono.v
theories/Props_LnMono.v
theories/RealBounds8.v
theories/P_ExpMono.v
theories/Props_ExpMono.v
theories/P_PowfMono.v
theories/Props_PowfMono.v
theories/P_TanMono.v
theories/Props_TanMono.v
theories/Equality.v
theories/SpecEq.v
theories/P_Equality.v
theories/Props_Equality.v
theories/P_FunEq.v
theories/Props_FunEq.v
theories/RustSyntax.v
theories/RustSem.v
theories/SrcText.v
theories/Source.v
theories/P_Source.v
theories/P_SourceAll.v
theories/Props_Source.v
theories/SrcText2.v
theories/Source2.v
theories/P_Source2.v
theories/Props_Source2.v
theories/Props_SourceEnd.v
