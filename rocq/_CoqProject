-Q theories Verif

theories/Aes.v
theories/AesPy.v
theories/Align.v
theories/Arr.v
theories/BCast.v
theories/Bench.v
theories/BitSlice.v
theories/Blocks.v
theories/Bounded.v
theories/BoundedLem.v
theories/Btpe.v
theories/Buffer32.v
theories/ChaCha.v
theories/Common.v
theories/Complex.v
theories/Conc.v
theories/Convert.v
theories/Count.v
theories/CtorPy.v
theories/Ctr.v
theories/CtrDraw.v
theories/CtrFacts.v
theories/CtrPy.v
theories/Doubles.v
theories/Dsfmt.v
theories/DsfmtCert.v
theories/DsfmtChk.v
theories/DsfmtFacts.v
theories/DsfmtJump.v
theories/DsfmtPoly.v
theories/Efiix.v
theories/Emul128.v
theories/Entropy.v
theories/FillArr.v
theories/FillC.v
theories/Finite.v
theories/Gamma.v
theories/GenRand.v
theories/Gf2.v
theories/Half.v
theories/HalfFacts.v
theories/Hc128.v
theories/Hc128Facts.v
theories/Hc128Py.v
theories/Hrua.v
theories/HyperLem.v
theories/InvDist.v
theories/Jsf.v
theories/JumpN.v
theories/Kat.v
theories/Lagged.v
theories/LaggedBuf.v
theories/LaneCtr.v
theories/Lanes.v
theories/Layout.v
theories/Lcg.v
theories/LcgMixFacts.v
theories/Limb.v
theories/LinCert.v
theories/Mcn.v
theories/Mt19937.v
theories/Mt19937Facts.v
theories/Mt19937Poly.v
theories/Mt64.v
theories/Mt64Facts.v
theories/MtChar.v
theories/MtJump.v
theories/MtSeed.v
theories/MulHilo.v
theories/MultiWord.v
theories/OptBuffer.v
theories/Order.v
theories/Pcg.v
theories/PcgFacts.v
theories/PcgInit.v
theories/PcgSeed.v
theories/Period.v
theories/Period1024.v
theories/Period512.v
theories/PeriodXo.v
theories/Pickle.v
theories/Polar.v
theories/Poly63.v
theories/PolyK.v
theories/PolyText.v
theories/Primes.v
theories/PropAlign.v
theories/PropBCast.v
theories/PropBench.v
theories/PropBounded.v
theories/PropBtpe.v
theories/PropBtpeLaw.v
theories/PropChaCha.v
theories/PropComplex.v
theories/PropConc.v
theories/PropConvert.v
theories/PropCtor.v
theories/PropCtr.v
theories/PropDsfmt.v
theories/PropDsfmtJump.v
theories/PropEntropy.v
theories/PropEqui.v
theories/PropEquiBlk.v
theories/PropEquiLin.v
theories/PropFillArr.v
theories/PropGamma.v
theories/PropGenRand.v
theories/PropHalf.v
theories/PropHc128.v
theories/PropHc128Py.v
theories/PropHrua.v
theories/PropHyper.v
theories/PropInvDist.v
theories/PropJumpDoc.v
theories/PropJumpLin.v
theories/PropLane.v
theories/PropLayout.v
theories/PropMt19937.v
theories/PropMt64.v
theories/PropMtJump.v
theories/PropMtSeed.v
theories/PropOut.v
theories/PropPcg.v
theories/PropPcgInit.v
theories/PropPickle.v
theories/PropPolar.v
theories/PropPtrs.v
theories/PropPub.v
theories/PropRdrand.v
theories/PropReject.v
theories/PropReseed.v
theories/PropSSeqPy.v
theories/PropSSeqRepr.v
theories/PropSeed.v
theories/PropSeedPy.v
theories/PropSeedSeq.v
theories/PropSfc.v
theories/PropSfcPy.v
theories/PropSfmt.v
theories/PropSfmtJump.v
theories/PropShape.v
theories/PropSimd.v
theories/PropSmall.v
theories/PropSqSeed.v
theories/PropSquares.v
theories/PropWishPy.v
theories/PropWishart.v
theories/PropWrapPy.v
theories/PropWrapper.v
theories/PropXoshiro.v
theories/PropZipf.v
theories/Ptrs.v
theories/PubFacts.v
theories/PubSpec.v
theories/Py.v
theories/PyLoop.v
theories/Rdrand.v
theories/Reject.v
theories/Reseed.v
theories/Romu.v
theories/SSeqPy.v
theories/SSeqPyLem.v
theories/SSeqRepr.v
theories/SeedPy.v
theories/SeedSeq.v
theories/SeedSeqFacts.v
theories/SeedSpawn.v
theories/Sfc.v
theories/SfcFacts.v
theories/SfcPy.v
theories/Sfmt.v
theories/SfmtCert.v
theories/SfmtChk.v
theories/SfmtFacts.v
theories/SfmtJump.v
theories/SfmtPoly.v
theories/SfmtSeed.v
theories/Shape.v
theories/Simd.v
theories/Speck.v
theories/SqSeed.v
theories/Squares.v
theories/SquaresFacts.v
theories/Tyche.v
theories/Weyl.v
theories/WishPy.v
theories/Wishart.v
theories/Word.v
theories/WrapPy.v
theories/Wrapper.v
theories/Xorshift1024Facts.v
theories/Xorshift1024Lin.v
theories/XorshiftFacts.v
theories/Xoshiro.v
theories/XoshiroFacts.v
theories/XoshiroLin.v
theories/Zipf.v
