-Q theories Verif
theories/Base.v
theories/Types.v
theories/Huffman.v
theories/Bitstream.v
theories/State.v
theories/Headers.v
theories/Idct.v
theories/Upsample.v
theories/Color.v
theories/Simd.v
theories/Worker.v
theories/Mcu.v
theories/McuProg.v
theories/Decoder.v
theories/BaseFacts.v
theories/HeaderFacts.v
theories/SpecHuffman.v
theories/SpecSegments.v
theories/SpecExtend.v
theories/Obs.v
theories/HuffmanProofs.v
theories/HuffmanPrefix.v
theories/HuffDecode.v
theories/ExtendFacts.v
theories/TableSegments.v
theories/SpecBits.v
theories/BitReader.v
theories/Refill.v
theories/Reader.v
theories/Feed.v
theories/FastAc.v
theories/SpecBlock.v
theories/Block.v
theories/BlockSafe.v
theories/HeaderInv.v
theories/WorkerSafe.v
theories/DecodeInv.v
theories/Session.v
theories/Keeps.v
theories/ApiFacts.v
theories/HeaderReads.v
theories/SpecFile.v
theories/HeaderItems.v
theories/ExTools.v
theories/Files.v
theories/Thm_Tables.v
theories/Thm_Bits.v
theories/Thm_Block.v
theories/Thm_Api.v
theories/Thm_Headers.v
theories/SpecIdct.v
theories/IdctChecked.v
theories/IdctFacts.v
theories/IdctSimd.v
theories/IdctExact.v
theories/IdctRange.v
theories/Thm_Idct.v
theories/SpecDct.v
theories/IdctReal.v
theories/Thm_IdctReal.v
theories/SpecColor.v
theories/ColorFacts.v
theories/Placement.v
theories/Strip.v
theories/Thm_Color.v
theories/UpsampleFacts.v
theories/UpsampleAvx.v
theories/Thm_Upsample.v
theories/ScanFacts.v
theories/Thm_Scan.v
theories/SpecProg.v
theories/SpecInter.v
theories/SpecScript.v
theories/SpecImage.v
theories/SpecPixels.v
theories/ObsProg.v
theories/ProgFacts.v
theories/ProgBlocks.v
theories/ProgRefine.v
theories/ProgScan.v
theories/ProgScript.v
theories/ProgInter.v
theories/ProgFile.v
theories/HeaderFile.v
theories/ProgImage.v
theories/GrayImage.v
theories/GrayFile.v
theories/GrayReal.v
theories/Thm_Prog.v
theories/Thm_ProgFile.v
theories/SpecColourPixels.v
theories/ColourImage.v
theories/ColourFile.v
theories/ColourReal.v
theories/Thm_Gray.v
theories/Thm_Colour.v
theories/SpecBaseline.v
theories/BaseGray.v
theories/BaseFile.v
theories/BaseReal.v
theories/Thm_BaseGray.v
theories/SpecBaseScan.v
theories/BaseInter.v
theories/BaseColour.v
theories/SampledImage.v
theories/SampledFile.v
theories/BaseColourFile.v
theories/SpecBasePixels.v
theories/BaseColourReal.v
theories/SpecSampledPixels.v
theories/BaseSampledReal.v
theories/Thm_BaseColour.v
theories/Thm_Sampled.v
theories/ProgSampled.v
theories/ProgSampledReal.v
theories/Thm_ProgSampled.v
theories/Pool.v
theories/Sim.v
theories/Jobs.v
theories/Sched.v
theories/OptFacts.v
theories/Thm_Options.v
theories/Sizes.v
theories/Thm_Size.v
theories/SpecRestart.v
theories/BlockEnd.v
theories/RestartGray.v
theories/RestartFile.v
theories/Thm_Restart.v
theories/SpecProgRestart.v
theories/Thm_ProgRestart.v
theories/SpecSafe.v
theories/NoPanic.v
theories/ProgNoPanic.v
theories/SampledNoPanic.v
theories/ProgSampledNoPanic.v
theories/SafeTools.v
theories/Thm_Safe.v
theories/SpecGraySampled.v
theories/GraySampled.v
theories/OrderFacts.v
theories/FormatFacts.v
theories/LateTables.v
theories/Thm_Order.v
theories/Thm_Between.v
theories/SpecSampled440.v
theories/Sampled440.v
theories/Thm_440.v
theories/SpecSampled420.v
theories/Sampled420.v
theories/Thm_420.v
theories/SpecSame.v
theories/Exact.v
theories/Thm_Same.v
theories/SpecReuse.v
theories/Reuse.v
theories/Thm_Reuse.v
theories/SpecScanHeader.v
theories/ScanParams.v
theories/ScanList.v
theories/SwapDc.v
theories/Thm_Params.v
