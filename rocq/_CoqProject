-Q theories Verif
theories/Base.v
theories/Layout.v
theories/LayoutProofs.v
theories/Sizes.v
theories/SizesProofs.v
theories/PropsLayout.v
theories/PropsSizes.v
theories/Mem.v
theories/MemProofs.v
theories/Accessor.v
theories/AccessorProofs.v
theories/RegionProofs.v
theories/Grid.v
theories/SpecGrid.v
theories/GridProofs.v
theories/GridInv.v
theories/BufferProofs.v
theories/GridOps.v
theories/GridSim.v
theories/GridView.v
theories/PropsGrid.v
theories/PropsGrid2.v
theories/Alloc.v
theories/AllocProofs.v
theories/PropsAlloc.v
theories/Peeler.v
theories/PeelerProofs.v
theories/PropsPeeler.v
theories/Array.v
theories/SpecArray.v
theories/ArrayProofs.v
theories/PropsArray.v
theories/Vector.v
theories/SpecVector.v
theories/VectorProofs.v
theories/PropsVector.v
theories/Cuda.v
theories/CudaProofs.v
theories/PropsCuda.v
theories/CudaArray.v
theories/SpecCudaArray.v
theories/CudaArrayProofs.v
theories/PropsCudaArray.v
theories/ShortVecLang.v
theories/ShortVecClass.v
theories/ShortVecScalar.v
theories/ShortVecSse.v
theories/ShortVecAvx.v
theories/ShortVecAvx512.v
theories/ShortVecNeon.v
theories/ShortVecMic.v
theories/ShortVecQpx.v
theories/ShortVecSym.v
theories/ShortVecNat.v
theories/ShortVecApi.v
theories/SpecShortVec.v
theories/ShortVecLift.v
theories/ShortVecProofs.v
theories/ShortVecBits.v
theories/PropsShortVec.v
theories/PropsShortVec2.v
theories/ShortVecSelect.v
theories/SpecSelect.v
theories/PropsSelect.v
theories/Preproc.v
theories/PreprocText.v
theories/SpecPreproc.v
theories/PreprocLib.v
theories/PreprocAbs.v
theories/PreprocProofs.v
theories/PreprocForEach.v
theories/PropsPreproc.v
theories/SpecRegister.v
theories/RegisterProofs.v
theories/RegisterText.v
theories/RegisterValues.v
theories/PropsRegister.v
theories/SpecSizes.v
theories/SizesText.v
theories/SizesRun.v
theories/PropsSizesText.v
theories/AccessVars.v
theories/SpecAccessVars.v
theories/AccessVarsProofs.v
theories/PropsAccessVars.v
theories/Testbed.v
theories/SpecTestbed.v
theories/TestbedProofs.v
theories/PropsTestbed.v
theories/SpecBulk.v
theories/BulkProofs.v
theories/BulkSteps.v
theories/BulkUnique.v
theories/BulkAll.v
theories/PropsBulk.v
theories/Stencil.v
theories/SpecStencil.v
theories/StencilProofs.v
theories/PropsStencil.v
theories/Sph.v
theories/SpecSph.v
theories/SphProofs.v
theories/PropsSph.v
theories/Lbm.v
theories/SpecLbm.v
theories/LbmProofs.v
theories/LbmExact.v
theories/PropsLbm.v
theories/PerfJacobi.v
theories/SpecPerfJacobi.v
theories/PerfJacobiProofs.v
theories/PropsPerfJacobi.v
theories/PerfNBody.v
theories/SpecPerfNBody.v
theories/PerfNBodyProofs.v
theories/PropsPerfNBody.v
theories/PerfMover.v
theories/SpecPerfMover.v
theories/PropsPerfMover.v
theories/PerfPairs.v
theories/SpecPerfPairs.v
theories/PropsPerfPairs.v
theories/FloatInt.v
theories/PropsFloatInt.v
theories/GridThrow.v
theories/SpecGridThrow.v
theories/GridThrowProofs.v
theories/PropsGridThrow.v
theories/VectorThrowProofs.v
theories/PropsVectorThrow.v
theories/ArrayThrow.v
theories/SpecArrayThrow.v
theories/ArrayThrowProofs.v
theories/PropsArrayThrow.v
theories/BufferThrow.v
theories/BufferThrowProofs.v
theories/PropsBufferThrow.v
theories/GridThrowRun.v
theories/SpecGridThrowRun.v
theories/GridThrowRunProofs.v
theories/PropsGridThrowRun.v
theories/VectorThrowRun.v
theories/SpecVectorThrowRun.v
theories/VectorThrowRunProofs.v
theories/PropsVectorThrowRun.v
theories/PerfPairsFloat.v
theories/FloatCount.v
theories/PropsPerfPairsFloat.v
