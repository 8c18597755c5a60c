-Q theories Verif
theories/Bytes.v
theories/CSem.v
theories/Bits.v
theories/T1ha2.v
theories/T1ha1.v
theories/T1ha0.v
theories/Aes.v
theories/Ia32aes.v
theories/RefVals.v
theories/Spec.v
theories/AesSpec.v
theories/NBits.v
theories/CSemFacts.v
theories/OpsFacts.v
theories/FetchFacts.v
theories/TailFacts.v
theories/ReadFacts.v
theories/KeyMem.v
theories/PageFacts.v
theories/T1ha2Facts.v
theories/T1ha1Facts.v
theories/CtxMem.v
theories/StreamFacts.v
theories/Api.v
theories/ApiFacts.v
theories/Wide128Facts.v
theories/Demo.v
theories/AesFacts.v
theories/Ia32aesFacts.v
theories/OneShot.v
theories/OneShotFacts.v
theories/PropOneShot.v
theories/PropAes.v
theories/ApiStatic.v
theories/PropStream.v
theories/PropBits.v
theories/WordRev.v
theories/Inject.v
theories/Collide.v
theories/Collide31.v
theories/PropAlgebra.v
theories/Dispatch.v
theories/Selfcheck.v
theories/SelfcheckSpec.v
theories/SelfcheckFacts.v
theories/SelfcheckTrace.v
theories/Recorded.v
theories/DispatchFacts.v
theories/Shipped.v
theories/Threads.v
theories/Coverage.v
theories/SelfcheckDemo.v
theories/PropSelfcheck.v
theories/PropDispatch.v
theories/Effects.v
theories/PropEffects.v
theories/PropRelations.v
theories/TestMain.v
theories/TestSpec.v
theories/TestFacts.v
theories/PropTest.v
theories/PropTest2.v
theories/VerifyFacts.v
theories/OtherVals.v
theories/Wyhash.v
theories/WyhashSpec.v
theories/WyhashFacts.v
theories/PropWyhash.v
theories/Onto.v
theories/Stadtx.v
theories/StadtxSpec.v
theories/StadtxFacts.v
theories/PropStadtx.v
theories/Highway.v
theories/HighwaySpec.v
theories/HighwayFacts.v
theories/HighwayCat.v
theories/PropHighway.v
theories/PropHighway2.v
theories/HighwayCxx.v
theories/HighwayTemplates.v
theories/HighwayPortable.v
theories/PropHighwayCxx.v
theories/HighwaySimd.v
theories/HighwaySimdFacts.v
theories/HighwaySimdSound.v
theories/PropHighwaySimd.v
theories/Primes.v
theories/Xxhash.v
theories/XxhashSpec.v
theories/XxhashFacts.v
theories/XxhashStream.v
theories/PropXxhash.v
theories/PropPrimes.v
theories/PropXxhash2.v
theories/Xxh3.v
theories/Xxh3Spec.v
theories/Xxh3Facts.v
theories/Xxh3Secret.v
theories/PropXxh3.v
theories/Xxh3State.v
theories/Xxh3Stream.v
theories/PropXxh3Stream.v
theories/PropXxh3Inject.v
theories/PropXxh3Collide.v
theories/Xxh3Utils.v
theories/PropXxh3Utils.v
theories/PropXxh3Generate.v
theories/PropXxh3Secret.v
theories/Xxh3Simd.v
theories/Xxh3SimdFacts.v
theories/Xxh3SimdSound.v
theories/Xxh3SimdLong.v
theories/Xxh3SimdEntry.v
theories/PropXxh3Simd.v
theories/HighwayVsx.v
theories/HighwayVsxFacts.v
theories/PropHighwayVsx.v
theories/WyhashUtils.v
theories/WyhashUtilsFacts.v
theories/PropWyhashUtils.v
theories/XxhashCopy.v
theories/PropXxhCopy.v
theories/Xxh3SimdState.v
theories/Xxh3SimdStream.v
theories/Xxh3SimdDigest.v
theories/PropXxh3SimdStream.v
theories/PropXxh3Life.v
