-Q theories Verif
theories/Absorb.v
theories/AbsorbProof.v
theories/AbsorbRel.v
theories/AesSpec.v
theories/Align.v
theories/AlignProof.v
theories/AlignSpec.v
theories/Alloc.v
theories/AllocProof.v
theories/AnyBlake2.v
theories/AnyBuf.v
theories/AnyCalls.v
theories/AnyProof.v
theories/AnyRefuted.v
theories/AnyShake.v
theories/AnyXofs.v
theories/Ascon.v
theories/AsconProof.v
theories/AsconRefuted.v
theories/AsconSpec.v
theories/Base.v
theories/Bind.v
theories/BindTypes.v
theories/Blake.v
theories/Blake2.v
theories/Blake2Proof.v
theories/Blake2Sim.v
theories/Blake2Spec.v
theories/Blake2p.v
theories/Blake2pLost.v
theories/Blake2pLostSpec.v
theories/Blake2pProof.v
theories/Blake2pRefuted.v
theories/Blake2pSim.v
theories/Blake2pSpec.v
theories/BlakeProof.v
theories/BlakeSpec.v
theories/Blocks.v
theories/BlocksProof.v
theories/BufProof.v
theories/Checked.v
theories/CkArx.v
theories/CkBlake.v
theories/CkMd.v
theories/CkMisc.v
theories/CkPerm.v
theories/CkTables.v
theories/CodedProof.v
theories/CodedSpec.v
theories/Collide.v
theories/CollideSpec.v
theories/CollideSponge.v
theories/CollideSponge2.v
theories/CollideTypes.v
theories/CollideTypes2.v
theories/CollideWords.v
theories/ColumnProof.v
theories/ColumnSpec.v
theories/ConstAscon.v
theories/ConstBlake.v
theories/ConstBlake2.v
theories/ConstEcho.v
theories/ConstEsch.v
theories/ConstGroestl.v
theories/ConstJh.v
theories/ConstKupyna.v
theories/ConstLsh.v
theories/ConstMd5.v
theories/ConstReal.v
theories/ConstRoots.v
theories/ConstRules.v
theories/ConstSha1.v
theories/ConstSha2.v
theories/ConstSha3.v
theories/ConstSkein.v
theories/ConstStreebog.v
theories/ConstWhirlpool.v
theories/Construct.v
theories/ConstructProof.v
theories/Custom.v
theories/CustomLib.v
theories/CustomProof.v
theories/Domain.v
theories/DomainSpec.v
theories/Echo.v
theories/EchoProof.v
theories/EchoSim.v
theories/EchoSpec.v
theories/Elements.v
theories/ElementsProof.v
theories/EmptyParam.v
theories/EmptyParamTypes.v
theories/EmptyRefuted.v
theories/EmptySqueeze.v
theories/EmptySqueezeProof.v
theories/EmptySqueezeRest.v
theories/EncodeProof.v
theories/Esch.v
theories/EschProof.v
theories/EschSpec.v
theories/Exact.v
theories/ExactProof.v
theories/ExactSpec.v
theories/ExtendProof.v
theories/ExtendSpec.v
theories/GfSpec.v
theories/Groestl.v
theories/GroestlProof.v
theories/GroestlSpec.v
theories/Hasher.v
theories/HasherProof.v
theories/HasherSpec.v
theories/HasherWhen.v
theories/Helpers.v
theories/HistoryProof.v
theories/HistorySpec.v
theories/Inj.v
theories/InjArx.v
theories/InjArx2.v
theories/InjAscon.v
theories/InjCode.v
theories/InjCols.v
theories/InjEchoJh.v
theories/InjGf.v
theories/InjKeccak.v
theories/Inputs.v
theories/Jh.v
theories/JhProof.v
theories/JhSpec.v
theories/K12.v
theories/K12Proof.v
theories/K12Spec.v
theories/Keccak.v
theories/KeccakProof.v
theories/KeccakSpec.v
theories/Kmac.v
theories/KmacProof.v
theories/Kupyna.v
theories/KupynaProof.v
theories/KupynaSpec.v
theories/Lemmas.v
theories/Library.v
theories/LibraryAny.v
theories/LibraryMore.v
theories/LibraryProof.v
theories/LibraryTypes.v
theories/LibraryTypesProof.v
theories/Lsh.v
theories/LshProof.v
theories/LshSpec.v
theories/Md5.v
theories/Md5Proof.v
theories/Md5Spec.v
theories/MdProof.v
theories/MdState.v
theories/Null.v
theories/NullLib.v
theories/NullOut.v
theories/NullOutLib.v
theories/NullOutProof.v
theories/NullProof.v
theories/Objects.v
theories/ObjectsProof.v
theories/Oblivious.v
theories/ObliviousProof.v
theories/ObliviousRel.v
theories/ObliviousSpec.v
theories/ObliviousThm.v
theories/OutCalls.v
theories/OutCallsProof.v
theories/PadInj.v
theories/PadInjSponge.v
theories/PermSpec.v
theories/Process.v
theories/ProcessTypes.v
theories/Properties.v
theories/PropertiesAlign.v
theories/PropertiesAlloc.v
theories/PropertiesAny.v
theories/PropertiesApi.v
theories/PropertiesBind.v
theories/PropertiesBlake.v
theories/PropertiesBlocks.v
theories/PropertiesCoded.v
theories/PropertiesCollide.v
theories/PropertiesConst.v
theories/PropertiesConstruct.v
theories/PropertiesCustom.v
theories/PropertiesDomain.v
theories/PropertiesElements.v
theories/PropertiesEmpty.v
theories/PropertiesExact.v
theories/PropertiesExtend.v
theories/PropertiesHistory.v
theories/PropertiesLost.v
theories/PropertiesMisc.v
theories/PropertiesMore.v
theories/PropertiesNull.v
theories/PropertiesNullOut.v
theories/PropertiesOblivious.v
theories/PropertiesOutCalls.v
theories/PropertiesPad.v
theories/PropertiesPerm.v
theories/PropertiesShape.v
theories/PropertiesShift.v
theories/PropertiesSize32.v
theories/PropertiesSplit.v
theories/PropertiesSqueeze.v
theories/PropertiesStream.v
theories/PropertiesThreads.v
theories/PropertiesThrows.v
theories/PropertiesWipe.v
theories/PropertiesWrap.v
theories/RealConst.v
theories/Sha1.v
theories/Sha1Proof.v
theories/Sha1Spec.v
theories/Sha2.v
theories/Sha2Proof.v
theories/Sha2Spec.v
theories/Sha3.v
theories/Sha3Proof.v
theories/Sha3Spec.v
theories/Shake.v
theories/ShakeProof.v
theories/ShapeProof.v
theories/ShapeSpec.v
theories/Size32.v
theories/Size32Proof.v
theories/Size32Str.v
theories/Size32StrProof.v
theories/Sizes.v
theories/Skein.v
theories/SkeinProof.v
theories/SkeinSim.v
theories/SkeinSpec.v
theories/Sm3.v
theories/Sm3Proof.v
theories/Sm3Spec.v
theories/SpecCommon.v
theories/SplitAny.v
theories/SplitSqueeze.v
theories/SplitTypes.v
theories/SpongeProof.v
theories/SpongeRefuted.v
theories/Squeeze.v
theories/SqueezeProof.v
theories/Stream.v
theories/StreamProof.v
theories/Streebog.v
theories/StreebogProof.v
theories/StreebogRefuted.v
theories/StreebogSpec.v
theories/TTable.v
theories/TableLemmas.v
theories/Threads.v
theories/ThreadsLib.v
theories/ThreadsProof.v
theories/Throws.v
theories/ThrowsProof.v
theories/TwoPhase.v
theories/Validate.v
theories/VecReplay.v
theories/VecUtil.v
theories/VectorsBlake.v
theories/VectorsBlake2.v
theories/VectorsBlake2p.v
theories/VectorsEcho.v
theories/VectorsGroestl.v
theories/VectorsJh.v
theories/VectorsKeccak.v
theories/VectorsLsh.v
theories/VectorsLwc.v
theories/VectorsRepoA.v
theories/VectorsRepoB.v
theories/VectorsRepoC.v
theories/VectorsRepoD.v
theories/VectorsRepoE.v
theories/VectorsRepoF.v
theories/VectorsSelf.v
theories/VectorsSkein.v
theories/VectorsStreebog.v
theories/Whirlpool.v
theories/WhirlpoolProof.v
theories/WhirlpoolSpec.v
theories/Wipe.v
theories/WordLemmas.v
theories/Wrap.v
theories/WrapProof.v
theories/XLibraryProof.v
