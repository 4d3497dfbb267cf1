-Q theories Verif

theories/Kat/AnubisKat.v
theories/Kat/AriaKat.v
theories/Kat/BlowfishKat.v
theories/Kat/CamelliaKat.v
theories/Kat/Cast5Kat.v
theories/Kat/DesKat.v
theories/Kat/GostKat.v
theories/Kat/HashKat.v
theories/Kat/IdeaKat.v
theories/Kat/KhazadKat.v
theories/Kat/LeaKat.v
theories/Kat/NoekeonKat.v
theories/Kat/Rc2Kat.v
theories/Kat/Rc5Kat.v
theories/Kat/Rc6Kat.v
theories/Kat/RectangleKat.v
theories/Kat/RijndaelKat.v
theories/Kat/SaferKat.v
theories/Kat/SaferppKat.v
theories/Kat/SeedKat.v
theories/Kat/SerpentKat.v
theories/Kat/Shacal2Kat.v
theories/Kat/SimonKat.v
theories/Kat/SkipjackKat.v
theories/Kat/Sm4Kat.v
theories/Kat/SparxKat.v
theories/Kat/SpeckKat.v
theories/Kat/StreamKat.v
theories/Kat/TeaKat.v
theories/Kat/ThreefishKat.v
theories/Kat/ThreewayKat.v
theories/Kat/TwofishKat.v
theories/Kat/XteaKat.v
theories/Lib/Bij.v
theories/Lib/Bits.v
theories/Lib/BitsP.v
theories/Lib/BlockLemmas.v
theories/Lib/BlockLoop.v
theories/Lib/Bytes.v
theories/Lib/Feistel.v
theories/Lib/Fermat.v
theories/Lib/GfP.v
theories/Lib/Hex.v
theories/Lib/KeyStreamB.v
theories/Lib/KeyStreamOp.v
theories/Lib/Lin.v
theories/Lib/Lists.v
theories/Lib/MemLemmas.v
theories/Lib/Res.v
theories/Lib/Spn.v
theories/Lib/Tele.v
theories/Lib/While.v
theories/Lib/Word.v
theories/Lib/WordSpec.v
theories/Lib/WordsP.v
theories/Lib/XorBytes.v
theories/Lib/XorSolve.v
theories/Model/Anubis.v
theories/Model/Aria.v
theories/Model/Blake.v
theories/Model/BlockApi.v
theories/Model/BlockBuf.v
theories/Model/Blowfish.v
theories/Model/Camellia.v
theories/Model/Cast5.v
theories/Model/Chacha.v
theories/Model/Ciphers.v
theories/Model/Des.v
theories/Model/Destroy.v
theories/Model/Eax.v
theories/Model/Gost.v
theories/Model/HashApi.v
theories/Model/Heap.v
theories/Model/Hmac.v
theories/Model/Idea.v
theories/Model/Kdf.v
theories/Model/Keccak.v
theories/Model/KeccakStream.v
theories/Model/Khazad.v
theories/Model/Lea.v
theories/Model/LoadStore.v
theories/Model/MacApi.v
theories/Model/Md.v
theories/Model/Md5.v
theories/Model/Mem.v
theories/Model/Modes.v
theories/Model/Noekeon.v
theories/Model/Omac.v
theories/Model/Random.v
theories/Model/Rc2.v
theories/Model/Rc4.v
theories/Model/Rc5.v
theories/Model/Rc6.v
theories/Model/Rectangle.v
theories/Model/Rijndael.v
theories/Model/Rotate.v
theories/Model/Safer.v
theories/Model/Saferpp.v
theories/Model/Salsa20.v
theories/Model/Seed.v
theories/Model/Serpent.v
theories/Model/Sha1.v
theories/Model/Sha2.v
theories/Model/Shacal2.v
theories/Model/Simon.v
theories/Model/Skein.v
theories/Model/Skipjack.v
theories/Model/Sm4.v
theories/Model/Sparx.v
theories/Model/Speck.v
theories/Model/StepCode.v
theories/Model/StreamApi.v
theories/Model/Table.v
theories/Model/Tea.v
theories/Model/Threefish.v
theories/Model/Threeway.v
theories/Model/Tiger.v
theories/Model/Twofish.v
theories/Model/Util.v
theories/Model/Whirlpool.v
theories/Model/Xtea.v
theories/Proof/AeP.v
theories/Proof/AePubP.v
theories/Proof/AnubisP.v
theories/Proof/AnubisPubP.v
theories/Proof/AriaP.v
theories/Proof/AriaPubP.v
theories/Proof/ArxP.v
theories/Proof/Blake2P.v
theories/Proof/BlakeCoreP.v
theories/Proof/BlakeP.v
theories/Proof/BlockBufP.v
theories/Proof/BlowfishP.v
theories/Proof/BlowfishPubP.v
theories/Proof/CamelliaP.v
theories/Proof/CamelliaPubP.v
theories/Proof/Cast5P.v
theories/Proof/CastPubP.v
theories/Proof/CbcMacP.v
theories/Proof/CbcMacPubP.v
theories/Proof/CfbDecP.v
theories/Proof/ChachaP.v
theories/Proof/CiphersP.v
theories/Proof/ColumnsP.v
theories/Proof/DamageP.v
theories/Proof/DesP.v
theories/Proof/DesPubP.v
theories/Proof/DestroyAeP.v
theories/Proof/DestroyP.v
theories/Proof/DigestsP.v
theories/Proof/Eax2P.v
theories/Proof/EaxP.v
theories/Proof/EquivKeys2P.v
theories/Proof/EquivKeysP.v
theories/Proof/GostAnyP.v
theories/Proof/GostP.v
theories/Proof/HaifaP.v
theories/Proof/HashCollP.v
theories/Proof/HashP.v
theories/Proof/HashesP.v
theories/Proof/HeapKindsP.v
theories/Proof/HeapLeakP.v
theories/Proof/HeapLifeP.v
theories/Proof/HeapP.v
theories/Proof/HmacP.v
theories/Proof/HmacPubP.v
theories/Proof/IdeaP.v
theories/Proof/IdeaPubP.v
theories/Proof/KeccakCoreP.v
theories/Proof/KeccakP.v
theories/Proof/KeccakStreamP.v
theories/Proof/KhazadP.v
theories/Proof/KhazadPubP.v
theories/Proof/LeaP.v
theories/Proof/LeaPubP.v
theories/Proof/LeakP.v
theories/Proof/LoadStoreP.v
theories/Proof/MacColl2P.v
theories/Proof/MacCollP.v
theories/Proof/MacP.v
theories/Proof/MdCollP.v
theories/Proof/MdP.v
theories/Proof/ModesBP.v
theories/Proof/ModesFinal.v
theories/Proof/ModesP.v
theories/Proof/ModesRefute.v
theories/Proof/NoekeonP.v
theories/Proof/Pbkdf2P.v
theories/Proof/Pbkdf2PubP.v
theories/Proof/PubLib.v
theories/Proof/RandSeedP.v
theories/Proof/RandomP.v
theories/Proof/Rc2P.v
theories/Proof/Rc2PubP.v
theories/Proof/Rc4P.v
theories/Proof/Rc5P.v
theories/Proof/Rc6P.v
theories/Proof/RectangleP.v
theories/Proof/RectanglePubP.v
theories/Proof/RekeyP.v
theories/Proof/RijndaelKeyP.v
theories/Proof/RijndaelP.v
theories/Proof/RijndaelTab.v
theories/Proof/Rounds2P.v
theories/Proof/Rounds3P.v
theories/Proof/RoundsP.v
theories/Proof/SaferP.v
theories/Proof/SaferPubP.v
theories/Proof/SaferppP.v
theories/Proof/Salsa20P.v
theories/Proof/ScryptOverP.v
theories/Proof/ScryptP.v
theories/Proof/ScryptPubP.v
theories/Proof/SeedP.v
theories/Proof/SeedPubP.v
theories/Proof/SerpentP.v
theories/Proof/SerpentPubP.v
theories/Proof/Sha1P.v
theories/Proof/Sha2P.v
theories/Proof/Shacal2P.v
theories/Proof/Shacal2PubP.v
theories/Proof/SimonP.v
theories/Proof/SkeinHashP.v
theories/Proof/SkeinMacP.v
theories/Proof/SkeinP.v
theories/Proof/SkeinStreamP.v
theories/Proof/SkipjackP.v
theories/Proof/SkipjackPubP.v
theories/Proof/Sm4P.v
theories/Proof/Sm4PubP.v
theories/Proof/SparxP.v
theories/Proof/SpeckP.v
theories/Proof/SpeckPubP.v
theories/Proof/SpongeCollP.v
theories/Proof/StepsAesP.v
theories/Proof/StepsCoreP.v
theories/Proof/StepsMemP.v
theories/Proof/StepsMoreP.v
theories/Proof/StepsP.v
theories/Proof/StepsRunP.v
theories/Proof/StepsSpeckP.v
theories/Proof/StreamDemo.v
theories/Proof/StreamsP.v
theories/Proof/SyncP.v
theories/Proof/TableP.v
theories/Proof/TeaP.v
theories/Proof/ThreefishP.v
theories/Proof/ThreefishPubP.v
theories/Proof/ThreewayP.v
theories/Proof/TigerP.v
theories/Proof/TraxPubP.v
theories/Proof/TwofishP.v
theories/Proof/TwofishPubP.v
theories/Proof/UtilP.v
theories/Proof/WayPubP.v
theories/Proof/WhirlpoolP.v
theories/Proof/WipedP.v
theories/Proof/XteaP.v
theories/Props/C01_C03_Block.v
theories/Props/C04_Aes.v
theories/Props/C05_C07_Keys.v
theories/Props/C08_C13_Modes.v
theories/Props/C14_C16_Streams.v
theories/Props/C17_KeccakStream.v
theories/Props/C18_SkeinStream.v
theories/Props/C19_C30_Hash.v
theories/Props/C23_C25_HashUse.v
theories/Props/C27_Keccak.v
theories/Props/C28_C29_Blake.v
theories/Props/C31_C32_CbcMac.v
theories/Props/C33_Hmac.v
theories/Props/C34_C36_Mac.v
theories/Props/C37_C39_Ae.v
theories/Props/C40_C41_Kdf.v
theories/Props/C42_C45_Util.v
theories/Props/C45_Destroy.v
theories/Props/C46_Alloc.v
theories/Props/C47_Random.v
theories/Props/C48_Byte.v
theories/Props/C48_Columns.v
theories/Props/C48_Net.v
theories/Props/C48_Published.v
theories/Props/C48_Spn.v
theories/Props/C48_Tables.v
theories/Props/C49_SkeinHash.v
theories/Props/C50_SkeinMac.v
theories/Props/C51_Damage.v
theories/Props/C52_Collision.v
theories/Props/C53_Sync.v
theories/Props/C54_EquivKeys.v
theories/Props/C55_MacCollision.v
theories/Props/C56_Leak.v
theories/Props/C57_Steps.v
theories/Props/C58_Rounds.v
theories/Spec/Ae.v
theories/Spec/Aes.v
theories/Spec/Affine.v
theories/Spec/Arx.v
theories/Spec/Blake.v
theories/Spec/Block.v
theories/Spec/CbcMac.v
theories/Spec/CfbDec.v
theories/Spec/Chacha.v
theories/Spec/Cipher.v
theories/Spec/Collision.v
theories/Spec/Damage.v
theories/Spec/DesPub.v
theories/Spec/Destroy.v
theories/Spec/EquivKeys.v
theories/Spec/Gf.v
theories/Spec/GostAny.v
theories/Spec/Hash.v
theories/Spec/Hashes.v
theories/Spec/Heap.v
theories/Spec/Hmac.v
theories/Spec/Kdf.v
theories/Spec/Keccak.v
theories/Spec/Leak.v
theories/Spec/Mac.v
theories/Spec/MacColl.v
theories/Spec/Md5.v
theories/Spec/Modes.v
theories/Spec/Pub1.v
theories/Spec/Pub2.v
theories/Spec/Pub3.v
theories/Spec/Pub4.v
theories/Spec/Pub5.v
theories/Spec/Pub6.v
theories/Spec/Pub7.v
theories/Spec/Pub8.v
theories/Spec/Pub9.v
theories/Spec/Random.v
theories/Spec/Rc4.v
theories/Spec/Rounds.v
theories/Spec/Salsa20.v
theories/Spec/ScryptOver.v
theories/Spec/Sha1.v
theories/Spec/Sha2.v
theories/Spec/Skein.v
theories/Spec/Steps.v
theories/Spec/Sync.v
theories/Spec/Tiger.v
theories/Spec/TigerSbox.v
theories/Spec/Util.v
theories/Spec/Whirlpool.v
theories/Spec/Words.v
