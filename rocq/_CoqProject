-Q theories Verif
theories/Model.v
theories/Spec.v
theories/Limbs.v
theories/Value.v
theories/CmpProofs.v
theories/AddProofs.v
theories/Decide.v
theories/OrderProofs.v
theories/P_Order.v
theories/AddExtra.v
theories/P_Add.v
theories/MulProofs.v
theories/FftProofs.v
theories/MulValue.v
theories/MulExtra.v
theories/MulCor.v
theories/IntProofs.v
theories/IntPartProofs.v
theories/IntConv.v
theories/MixedProofs.v
theories/IntCor.v
theories/P_Mul.v
theories/P_Int.v
theories/ModelDiv.v
theories/DivProofs.v
theories/NewtonProofs.v
theories/DoubleProofs.v
theories/SeedProofs.v
theories/InvProofs.v
theories/P_Div.v
theories/CtorProofs.v
theories/SqrtProofs.v
theories/OrderDec.v
theories/P_Root.v
theories/ModelStr.v
theories/SpecText.v
theories/StrProofs.v
theories/StrOut.v
theories/StrFmt.v
theories/StrAny.v
theories/P_Text.v
theories/ModelPow.v
theories/PowGen.v
theories/PowProofs.v
theories/PowExtra.v
theories/LdexpProofs.v
theories/FmodProofs.v
theories/P_Pow.v
theories/SpecGen.v
theories/FloatEval.v
theories/ModelGen.v
theories/ComplexProofs.v
theories/ComplexReal.v
theories/ComplexFloat.v
theories/AnalysisProofs.v
theories/SeriesProofs.v
theories/PochFloat.v
theories/P_Gen.v
theories/ModelObj.v
theories/SpecObj.v
theories/ObjProofs.v
theories/WfProofs.v
theories/ObjExamples.v
theories/SpecProg.v
theories/ObjValues.v
theories/P_Obj.v
theories/ModelPrime.v
theories/SpecPrime.v
theories/PrimeProofs.v
theories/FactorProofs.v
theories/PrimeFloat.v
theories/P_Prime.v
theories/ModelLimits.v
theories/LimitsProofs.v
theories/P_Limits.v
theories/ModelElem.v
theories/ElemProofs.v
theories/SinReal.v
theories/SeriesFloat.v
theories/ExpReal.v
theories/ExpFloat.v
theories/ExpAcc.v
theories/SinFloat.v
theories/SinStep.v
theories/SinAcc.v
theories/SinTiny.v
theories/ElemSpecial.v
theories/P_Elem.v
theories/ModelConst.v
theories/ConstReal.v
theories/ConstLit.v
theories/RecipCheck.v
theories/P_Const.v
theories/P_Exp.v
theories/P_Sin.v
theories/ModelTables.v
theories/TabFact.v
theories/TabFact2.v
theories/TabBin.v
theories/TabProofs.v
theories/TabCheck.v
theories/SpecFact.v
theories/ModelFact.v
theories/FactProofs.v
theories/P_Tables.v
theories/SpecBern.v
theories/BernReal.v
theories/TabBern.v
theories/ModelBern.v
theories/BernFloat.v
theories/BernTab.v
theories/BernWrong.v
theories/P_Bern.v
theories/ModelCplx.v
theories/SpecCplx.v
theories/CplxReal.v
theories/CplxProofs.v
theories/P_Cplx.v
theories/AtanAcc.v
theories/HyperFloat.v
theories/AtanSer.v
theories/AtanTop.v
theories/SpecTrig.v
theories/Atan2Acc.v
theories/P_Atan.v
theories/TanAcc.v
theories/P_Trig.v
theories/HypAcc.v
theories/P_Hyp.v
theories/LogSer.v
theories/LogAcc.v
theories/LogDiv.v
theories/LogHalf.v
theories/ModelAtanh.v
theories/AtanhAcc.v
theories/AtanhBad.v
theories/P_Log.v
theories/AsinAcc.v
theories/AsinSer.v
theories/AsinTop.v
theories/P_Asin.v
theories/SpecJPow.v
theories/ModelJPow.v
theories/JPowProofs.v
theories/P_JPow.v
theories/SpecGamma.v
theories/ModelGamma.v
theories/GammaReal.v
theories/GammaProofs.v
theories/GammaTop.v
theories/P_Gamma.v
theories/SpecZeta.v
theories/EulerProduct.v
theories/EulerEven.v
theories/ModelZeta.v
theories/ZetaProofs.v
theories/ZetaInt.v
theories/P_Zeta.v
theories/ModelGenFun.v
theories/GenFunProofs.v
theories/P_GenFun.v
theories/P_LogBad.v
theories/CbrtProofs.v
theories/P_Cbrt.v
theories/TinyNan.v
theories/P_Tiny.v
