-Q theories Verif
theories/Machine.v
theories/CalcAddSub.v
theories/CalcSquMul.v
theories/CalcDivRem.v
theories/CalcPowMod.v
theories/CalcGcd.v
theories/BigInt.v
theories/BigIntText.v
theories/BigIntBytes.v
theories/BigIntDouble.v
theories/Facts.v
theories/AddSubFacts.v
theories/SquMulFacts.v
theories/DivRemFacts.v
theories/DivCoreFacts.v
theories/Spec.v
theories/SpecFacts.v
theories/BigIntFacts.v
theories/CompareFacts.v
theories/SpecApi.v
theories/ArithLaws.v
theories/Examples.v
theories/ConvFacts.v
theories/ShiftFacts.v
theories/ConvLaws.v
theories/SpecPos.v
theories/PosFacts.v
theories/WordFacts.v
theories/BytesFacts.v
theories/ToBytesFacts.v
theories/PropArith.v
theories/PropShift.v
theories/PropConv.v
theories/PropBits.v
theories/PropBytes.v
theories/PowFacts.v
theories/ModPowFacts.v
theories/ModPowApi.v
theories/ReducerFacts.v
theories/SpecReduce.v
theories/BarrettFacts.v
theories/LargeModPow.v
theories/PowLaws.v
theories/SafeModPow.v
theories/PropPow.v
theories/PropReduce.v
theories/SpecGcd.v
theories/GcdFacts.v
theories/GcdRegions.v
theories/PropGcd.v
theories/SpecText.v
theories/TextFacts.v
theories/PropText.v
theories/SpecDouble.v
theories/DoubleFacts.v
theories/SpecFloat.v
theories/BigIntFloat.v
theories/FloatFacts.v
theories/BigIntLog.v
theories/SpecPy.v
theories/PyBind.v
theories/LogFacts.v
theories/PropDouble.v
theories/PropFloat.v
theories/SpecLog.v
theories/LogReal.v
theories/PropLog.v
theories/PyFacts.v
theories/PyPow.v
theories/PyFloat.v
theories/PropPython.v
theories/CoreFacts.v
theories/PropCore.v
theories/ApiMem.v
theories/SpecMem.v
theories/MemFacts.v
theories/PropMem.v
theories/LimbFacts.v
theories/ApiRun.v
theories/RunFacts.v
theories/SpecRun.v
theories/RunExact.v
theories/PropRun.v
theories/SpecModPow.v
theories/SpecActual.v
theories/RawFacts.v
theories/GcdExact.v
theories/LeakyProduct.v
theories/LeakyModPow.v
theories/ActualFacts.v
theories/ActualLaws.v
theories/AssertCase.v
theories/PropActual.v
theories/WinCalc.v
theories/WinBigInt.v
theories/SpecWin.v
theories/WinFacts.v
theories/WinMulFacts.v
theories/WinPowFacts.v
theories/WinConvFacts.v
theories/WinGcdFacts.v
theories/WinModPowFacts.v
theories/WinModPowLarge.v
theories/WinEvery.v
theories/PropWin.v
theories/WinRun.v
theories/SpecWinRun.v
theories/WinGcdExact.v
theories/WinRunFacts.v
theories/PropWinRun.v
theories/PyRun.v
theories/SpecPyRun.v
theories/PyRunFacts.v
theories/PropPyRun.v
theories/BigIntLogDouble.v
theories/SpecLogDouble.v
theories/LogDoubleFacts.v
theories/PyLog.v
theories/PyLogFacts.v
theories/PropLogDouble.v
theories/WinLog.v
theories/WinLogFacts.v
theories/PyClass.v
theories/SpecPyClass.v
theories/BitLengthFacts.v
theories/PyClassFacts.v
theories/PropPyClass.v
theories/PyClassLog.v
theories/SpecPyLog.v
theories/PyClassLogFacts.v
theories/PropClass.v
theories/StaticInit.v
theories/SpecStatic.v
theories/StaticFacts.v
theories/PropStatic.v
theories/TestOracle.v
theories/OracleFacts.v
theories/OracleFacts2.v
theories/SpecOracle.v
theories/SpecReference.v
theories/OracleFacts3.v
theories/TestCalc.v
theories/CalcFacts.v
theories/OracleTotal.v
theories/TestRandom.v
theories/RandomFacts.v
theories/PropOracle.v
theories/SpecGcdEnds.v
theories/GcdEnds.v
theories/PropGcdEnds.v
theories/StubFix.v
theories/SpecStub.v
theories/StubFacts.v
theories/PropStub.v
theories/PyKeywords.v
theories/SpecKeywords.v
theories/KeywordFacts.v
theories/PropKeywords.v
theories/RepoTests.v
theories/IntSizes.v
theories/SpecSizes.v
theories/IntSizesFacts.v
theories/PropSizes.v
theories/SpecIdentity.v
theories/IdentityFacts.v
theories/PropIdentity.v
theories/TestNumbers.v
theories/SpecNumbers.v
theories/NumberFacts.v
theories/PropNumbers.v
theories/TestLog.v
theories/SpecTestLog.v
theories/TestLogFacts.v
theories/TestLogFacts2.v
theories/TestLogFacts3.v
theories/TestLogFacts4.v
theories/TestLogFacts5.v
theories/PropTestLog.v
theories/BufCalls.v
theories/SpecBuffer.v
theories/BufferFacts.v
theories/PropBuffer.v
theories/TestBodies.v
theories/SpecBodies.v
theories/BodyFacts.v
theories/BodyAxioms.v
theories/PropBodies.v
theories/TestShifts.v
theories/SpecShifts.v
theories/TestShiftFacts.v
theories/TestPowFacts.v
theories/TestModFacts.v
theories/PropShifts.v
theories/TestConstants.v
theories/TestConstantFacts.v
theories/EvenEnds.v
theories/PropConstants.v
theories/LogGaps.v
theories/SpecLogBodies.v
theories/LogBodyFacts.v
theories/PropLogBodies.v
theories/TestLogBody.v
theories/SpecLogTest.v
theories/LogBaseFacts.v
theories/LogTestFacts.v
theories/LogTestFacts2.v
theories/LogTestFacts3.v
theories/PropLogTest.v
theories/IntLimbs.v
theories/SpecLimbs.v
theories/IntLimbsFacts.v
theories/IntShiftFacts.v
theories/IntShiftNeg.v
theories/IntLimbsLaws.v
theories/PropLimbs.v
theories/IntConv.v
theories/SpecIntConv.v
theories/IntConvFacts.v
theories/IntConvLaws.v
theories/PropIntConv.v
theories/IntAdd.v
theories/SpecIntAdd.v
theories/IntAddFacts.v
theories/IntAddLaws.v
theories/PropIntAdd.v
theories/SpecPyOrder.v
theories/PyOrderFacts.v
theories/PropPyOrder.v
theories/SpecHelpers.v
theories/HelperFacts.v
theories/WinDoubleFacts.v
theories/PropHelpers.v
theories/IntText.v
theories/SpecIntText.v
theories/IntTextFacts.v
theories/IntTextLaws.v
theories/PropIntText.v
theories/IntBits.v
theories/SpecIntBits.v
theories/IntBitsFacts.v
theories/IntBitsLaws.v
theories/PropIntBits.v
theories/IntDiv.v
theories/SpecIntDiv.v
theories/IntDivFacts.v
theories/IntDivLaws.v
theories/PropIntDiv.v
theories/IntMul.v
theories/SpecIntMul.v
theories/IntMulFacts.v
theories/IntMulLaws.v
theories/PropIntMul.v
theories/IntGcd.v
theories/SpecIntGcd.v
theories/IntGcdFacts.v
theories/IntGcdLaws.v
theories/PropIntGcd.v
theories/IntPow.v
theories/SpecIntPow.v
theories/IntPowFacts.v
theories/IntPowLaws.v
theories/PropIntPow.v
theories/IntModPow.v
theories/SpecIntModPow.v
theories/IntModPowFacts.v
theories/IntModPowLaws.v
theories/PropIntModPow.v
theories/SpecIntModZero.v
theories/IntModZeroFacts.v
theories/PropIntModZero.v
