-Q theories Verif
theories/Base/Word.v
theories/Base/WordLemmas.v
theories/Base/Cong.v
theories/Model/Compat.v
theories/Model/Lcrng32.v
theories/Model/Lcrng64.v
theories/Model/LcrngClasses.v
theories/Spec/LcrngSpec.v
theories/Proofs/LcgProofs.v
theories/Proofs/CompatProofs.v
theories/Proofs/Lcrng32Proofs.v
theories/Proofs/Lcrng64Proofs.v
theories/Proofs/LcrngFinal.v
theories/Properties/C01_C10_Lcrng.v
theories/Tests/LcrngTests.v
theories/Model/MT.v
theories/Spec/MTSpec.v
theories/Proofs/MTProofs.v
theories/Spec/MTHistory.v
theories/Proofs/MTFinal.v
theories/Properties/P_MT.v
theories/Tests/MTTests.v
theories/Model/SFMT.v
theories/Spec/SFMTSpec.v
theories/Tests/SFMTTests.v
theories/Proofs/GF2.v
theories/Proofs/Orbit.v
theories/Proofs/GF2Period.v
theories/Proofs/SFMTProofs.v
theories/Proofs/SFMTShuffle.v
theories/Proofs/SFMTMatrix.v
theories/Spec/SFMTHistory.v
theories/Proofs/SFMTFinal.v
theories/Properties/P_SFMT.v
theories/Model/TinyMT.v
theories/Spec/TinySpec.v
theories/Proofs/TinyProofs.v
theories/Properties/P_TinyMT.v
theories/Tests/TinyTests.v
theories/Model/Util.v
theories/Model/Float.v
theories/Model/Xorshift.v
theories/Model/Xoroshiro.v
theories/Tests/XorshiftTests.v
theories/Spec/XorshiftSpec.v
theories/Proofs/XorshiftProofs.v
theories/Proofs/XoroshiroProofs.v
theories/Proofs/XorshiftRange.v
theories/Spec/FloatSpec.v
theories/Proofs/FloatProofs.v
theories/Proofs/XorshiftFloat.v
theories/Proofs/XorshiftFinal.v
theories/Proofs/TinyPeriod.v
theories/Spec/UtilSpec.v
theories/Spec/TextSpec.v
theories/Proofs/UtilProofs.v
theories/Properties/P_Xorshift.v
theories/Properties/P_Util.v
theories/Model/RNGList.v
theories/Spec/RNGListSpec.v
theories/Proofs/RNGListProofs.v
theories/Model/FNV.v
theories/Spec/FNVSpec.v
theories/Proofs/FNVProofs.v
theories/Properties/P_ListFNV.v
theories/Model/SHA1.v
theories/Model/SHA1Class.v
theories/Tests/SHA1Tests.v
theories/Spec/SHA1Spec.v
theories/Proofs/SHA1Rounds.v
theories/Proofs/SHA1Proofs.v
theories/Proofs/SHA1Session.v
theories/Proofs/SHA1Encode.v
theories/Properties/P_SHA1.v
theories/Model/Gen3State.v
theories/Model/Gen3Area.v
theories/Model/Gen3Wild.v
theories/Spec/Gen3Spec.v
theories/Spec/Gen3WildSpec.v
theories/Proofs/StatProofs.v
theories/Proofs/Gen3StateProofs.v
theories/Proofs/Gen3StateInit.v
theories/Proofs/Gen3AreaProofs.v
theories/Proofs/Gen3Draws.v
theories/Proofs/Gen3Witness.v
theories/Proofs/Gen3Pid.v
theories/Proofs/Gen3WildProofs.v
theories/Proofs/Gen3Generate.v
theories/Proofs/Gen3Final.v
theories/Proofs/Gen3Props.v
theories/Proofs/Gen3Construct.v
theories/Properties/P_Gen3.v
theories/Model/PersonalLayouts.v
theories/Model/PersRS.v
theories/Model/PersE.v
theories/Model/PersFR.v
theories/Model/PersLG.v
theories/Model/PersDP.v
theories/Model/PersPT.v
theories/Model/PersBW.v
theories/Model/PersB2W2.v
theories/Model/PersXY.v
theories/Model/PersAO.v
theories/Model/PersSM.v
theories/Model/PersUU.v
theories/Model/PersSWSH.v
theories/Model/PersBDSP.v
theories/Model/PersLA.v
theories/Model/PersonalData3.v
theories/Model/Personal.v
theories/Spec/PersonalSpec.v
theories/Proofs/PersonalProofs.v
theories/Properties/P_Personal.v
theories/Model/Encounter3.v
theories/Model/EncounterData3.v
theories/Model/Bundled3.v
theories/Spec/Encounter3Spec.v
theories/Spec/MapNameSpec.v
theories/Proofs/Encounter3Proofs.v
theories/Proofs/MapNameProofs.v
theories/Proofs/BundledLit3.v
theories/Proofs/BundledProofs3.v
theories/Proofs/UnownProofs.v
theories/Properties/P_Encounter3.v
theories/Model/Flatbuf.v
theories/Spec/FlatbufSpec.v
theories/Proofs/FlatbufProofs.v
theories/Proofs/FlatbufCheck.v
theories/Model/FbsLA.v
theories/Spec/FbsLASpec.v
theories/Proofs/FbsLAProofs.v
theories/Proofs/FbsCase.v
theories/Properties/P_Flatbuf.v
theories/Model/EncounterLA.v
theories/Spec/EncounterLASpec.v
theories/Proofs/EncounterLAProofs.v
theories/Proofs/CalcSlotProofs.v
theories/Proofs/CalcSlotMono.v
theories/Properties/P_EncounterLA.v
theories/Model/Trie.v
theories/Model/LaBytes1.v
theories/Model/LaBytes2.v
theories/Model/LaBytes3.v
theories/Model/LaBytes4.v
theories/Model/LaBytes5.v
theories/Model/LaBytesEncount.v
theories/Model/LaBytesMisc.v
theories/Model/BundledLA.v
theories/Model/LaSpawn1.v
theories/Model/LaSpawn2.v
theories/Model/LaSpawn3.v
theories/Model/LaSpawn4.v
theories/Model/LaSpawn5.v
theories/Model/LaOutbreakGroup.v
theories/Model/LaOutbreakLottery.v
theories/Model/BundledSpawn.v
theories/Model/NameTrie.v
theories/Model/TableNames.v
theories/Model/BundledNames.v
theories/Spec/BundledLASpec.v
theories/Proofs/FbsFast.v
theories/Proofs/LoadFast.v
theories/Proofs/LaLitCommon.v
theories/Proofs/LaLit1.v
theories/Proofs/LaLit2.v
theories/Proofs/LaLit3.v
theories/Proofs/LaLit4.v
theories/Proofs/LaLit5.v
theories/Proofs/BundledProofsLA.v
theories/Proofs/SpawnFast.v
theories/Proofs/SpawnLit1.v
theories/Proofs/SpawnLit2.v
theories/Proofs/SpawnLit3.v
theories/Proofs/SpawnLit4.v
theories/Proofs/SpawnLit5.v
theories/Proofs/SpawnLitOutbreak.v
theories/Spec/SpawnSpec.v
theories/Proofs/SpawnProofs.v
theories/Properties/P_Spawners.v
theories/Spec/TableNameSpec.v
theories/Proofs/TableNameProofs.v
theories/Properties/P_TableNames.v
theories/Properties/P_BundledLA.v
theories/Model/Cache.v
theories/Spec/CacheSpec.v
theories/Proofs/CacheProofs.v
theories/Properties/P_Cache.v
theories/Model/Compilation.v
theories/Model/Decorated.v
theories/Properties/P_Compilation.v
theories/Spec/RecoverSpec.v
theories/Proofs/LcrngRecover.v
theories/Proofs/Gen3Recover.v
theories/Proofs/SeedRecover.v
theories/Properties/P_Recover.v
theories/Model/TextData.v
theories/Model/Names.v
theories/Model/Gen3Csv.v
theories/Proofs/CsvProofs.v
theories/Proofs/CsvFormat.v
theories/Proofs/BundledText3.v
theories/Spec/NameSpec.v
theories/Proofs/NameProofs.v
theories/Properties/P_Text.v
theories/Spec/ObjectSpec.v
theories/Spec/CountSpec.v
theories/Proofs/Count.v
theories/Proofs/Frequency.v
theories/Proofs/StateRecover.v
theories/Proofs/RandFrequency.v
theories/Properties/P_Frequency.v
theories/Spec/ClassSpec.v
theories/Proofs/ClassProofs.v
theories/Properties/P_Classes.v
theories/Properties/P_Maps.v
theories/Model/Enums.v
theories/Spec/EnumSpec.v
theories/Proofs/EnumProofs.v
theories/Properties/P_Enums.v
theories/Model/BundledPersonal.v
theories/Spec/PersonalTableSpec.v
theories/Proofs/PersonalTableFast.v
theories/Proofs/PersonalTableProofs.v
theories/Proofs/PersonalLA.v
theories/Properties/P_PersonalTables.v
theories/Spec/ModesSpec.v
theories/Proofs/ModesProofs.v
theories/Properties/P_Modes.v
theories/Spec/SlotShareSpec.v
theories/Proofs/SlotShares.v
theories/Properties/P_SlotShares.v
theories/Spec/CycleSpec.v
theories/Proofs/TwisterCycle.v
theories/Properties/P_Cycle.v
theories/Model/JitSpec.v
theories/Model/JitClasses.v
theories/Spec/FieldSpec.v
theories/Proofs/JitSpecProofs.v
theories/Properties/P_Fields.v
theories/Spec/SpreadSpec.v
theories/Proofs/SpreadProofs.v
theories/Properties/P_Spread.v
theories/Spec/FlipSpec.v
theories/Proofs/Observe.v
theories/Proofs/FlipProofs.v
theories/Properties/P_Flips.v
theories/Spec/BlockSpec.v
theories/Proofs/BlockProofs.v
theories/Properties/P_Block.v
theories/Spec/BitSpec.v
theories/Proofs/BitProofs.v
theories/Properties/P_Bits.v
theories/Model/LcrngObject.v
theories/Spec/StreamSpec.v
theories/Proofs/StreamProofs.v
theories/Properties/P_Stream.v
theories/Spec/TableSpec.v
theories/Proofs/TableProofs.v
theories/Properties/P_Table.v
theories/Spec/FitSpec.v
theories/Proofs/FitProofs.v
theories/Properties/P_Fit.v
theories/Spec/PrefixSpec.v
theories/Proofs/PrefixProofs.v
theories/Properties/P_Prefix.v
theories/Spec/WildRateSpec.v
theories/Proofs/WildRate.v
theories/Properties/P_WildRate.v
theories/Model/Scalars.v
theories/Proofs/ScalarProofs.v
theories/Properties/P_Scalar.v
theories/Model/Options.v
theories/Model/Patch.v
theories/Spec/PatchSpec.v
theories/Proofs/PatchProofs.v
theories/Properties/P_Options.v
theories/Proofs/LcrngTwo.v
theories/Properties/P_Two.v
theories/Proofs/OneSeed.v
theories/Properties/P_OneSeed.v
theories/Model/Dump.v
theories/Spec/DumpSpec.v
theories/Proofs/DumpProofs.v
theories/Properties/P_Dump.v
theories/Spec/SettingsSpec.v
theories/Proofs/SettingsProofs.v
theories/Properties/P_Settings.v
theories/Properties/P_Natures.v
theories/Spec/ShiftSpec.v
theories/Proofs/ShiftProofs.v
theories/Properties/P_Shift.v
theories/Spec/LeadRateSpec.v
theories/Proofs/LeadRate.v
theories/Properties/P_LeadRate.v
theories/Spec/MemorySpec.v
theories/Proofs/MemoryProofs.v
theories/Properties/P_Memory.v
theories/Spec/GrowSpec.v
theories/Proofs/GrowProofs.v
theories/Properties/P_Grow.v
theories/Model/NumPy2.v
theories/Spec/NumPySpec.v
theories/Proofs/NumPyProofs.v
theories/Properties/P_NumPy.v
theories/Model/SharedList.v
theories/Spec/SharedListSpec.v
theories/Proofs/SharedListProofs.v
theories/Properties/P_SharedList.v
theories/Model/Gen3Update.v
theories/Spec/UpdateSpec.v
theories/Proofs/UpdateProofs.v
theories/Properties/P_Update.v
theories/Model/Heap3.v
theories/Spec/HeapSpec.v
theories/Proofs/HeapProofs.v
theories/Properties/P_Heap.v
theories/Spec/OtherSpec.v
theories/Proofs/OtherProofs.v
theories/Properties/P_OtherGames.v
theories/Model/NumPy2Rest.v
theories/Proofs/NumPy2RestProofs.v
theories/Properties/P_NumPyRest.v
theories/Spec/PidSpec.v
theories/Proofs/PidProofs.v
theories/Properties/P_Pid.v
theories/Spec/SisterSpec.v
theories/Proofs/SisterProofs.v
theories/Properties/P_Sister.v
theories/Spec/PlaceSpec.v
theories/Proofs/PlaceProofs.v
theories/Spec/PerfectSpec.v
theories/Proofs/PerfectProofs.v
theories/Proofs/PerfectCount.v
theories/Properties/P_Perfect.v
theories/Proofs/ShinySeeds.v
theories/Proofs/ShinyProofs.v
theories/Proofs/PlaceCount.v
theories/Properties/P_Place.v
theories/Properties/P_Shiny.v
theories/Proofs/NatureSeeds.v
theories/Proofs/NatureProofs.v
theories/Proofs/RockNature.v
theories/Properties/P_SlotNature.v
theories/Proofs/LevelSeeds.v
theories/Proofs/LevelProofs.v
theories/Properties/P_SlotLevel.v
theories/Spec/KindSpec.v
theories/Proofs/KindSeeds.v
theories/Proofs/KindProofs.v
theories/Properties/P_SlotKind.v
