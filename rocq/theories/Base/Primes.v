(** The two BN254/Grumpkin primes, proved prime by Pocklington certificates.
    q_mod: base field of BN254 G1 = scalar field of Grumpkin (contracts/libs/Hash.sol:10, contracts/libs/Pairing.sol:34).
    r_mod: scalar field of BN254  = base field of Grumpkin  (contracts/PseudoRand.sol:13, contracts/libs/Grumpkin.sol:14). *)
From Coq Require Import ZArith Znumtheory List.
From Verif.Base Require Import Pocklington.
Import ListNotations.
Open Scope Z_scope.

Definition bn_certs : list cert := [
  (5, [(2,2,(2,[(false,0,0x4)],
[(false,0x3,0x1)]))]);
  (93001, [(2,3,(7,[(false,0,0x31); (true,0,0x41a7); (true,0x530d,0x7ee2); (false,0x2c50,0x12cb4); (true,0x6ce50,0x5120); (false,0x121d,0xfabb); (true,0x4bb56,0x2a9); (true,0x22,0x14945); (false,0x12a70,0x82a9); (true,0x148f4,0xbf63); (false,0x64d3,0xef1e); (false,0x9d63,0xc549); (true,0x2edf6,0x5a91); (false,0x1693,0x16536); (false,0x15f3c,0x16b48)],
[(false,0x16b47,0x1)])); (5,3,(2,[(false,0,0x4); (false,0,0x10); (true,0,0x200); (false,0x2,0x1296e); (false,0xf383,0x39e9); (false,0x93b,0x4b3e); (true,0x1f2a,0x1550e); (false,0x1402f,0x5a5d); (true,0x2cf4,0x3dfe); (false,0xa94,0x27d0); (true,0x8b9,0x1423f); (false,0x11dd7,0x12c32); (false,0xf80f,0x1387d); (false,0x10ccb,0x6e26)],
[(false,0x2165,0xf0d7); (true,0x44b2d25d,0x1)]))]);
  (12048837557, [(2,2,(2,[(false,0,0x4); (true,0,0x20); (true,0,0x800); (false,0,0x400000); (false,0x5b4,0x34a4bbbc); (true,0x7b7c265,0x86c07bb7); (true,0x32915e61,0x25fd6340d); (true,0x404e9b5b7,0x2c4fdd9ef); (false,0x2bbef0a27,0x1dbbcd28e); (false,0x13b24fb6e,0x989907fe); (false,0x206ca1a8,0xfb825c3c); (true,0xb029819d,0x10ba7d91f); (false,0x63c0dd33,0x1f91c1bb2); (true,0x2c68520e8,0x14cb2d380); (false,0x9a205028,0xe7c8dbb8); (true,0x959d54e2,0x8f24aeb6); (false,0x1c87ee87,0x231d616f1); (true,0x36f125ce5,0xee59f8d9); (false,0x4f1b2dec,0x1ee2b0c15); (true,0x2a8122c6d,0x23ed7bb61); (false,0x1cc1f2d0c,0x10fafd45); (true,0xcd8fc3,0x2a4f0353); (false,0x27e13a7,0xb39a9ad6); (true,0x59d54614,0x1455a6da4); (true,0x126caa1c2,0xef652df6); (true,0x9f99de3e,0x474f44f2); (false,0x714a387,0x29af4a951); (true,0x4d6caffc9,0x216bfb25); (true,0x31c59cb,0x2aa4b112b); (false,0x288363290,0x17ea0cd69); (true,0x197b77c3f,0x29f13bc97); (false,0x273133c09,0x2ce2aabb4)],
[(false,0x2ce2aabb3,0x1)])); (93001,1,(2,[(true,0,0x8); (true,0,0x80); (true,0,0x8000); (true,0,0x80000000); (true,0x2da0961f,0x1e6192715); (false,0x149053af1,0x1ab75c054); (true,0x1fcdb5b5a,0x174ab827e); (false,0xc162a4d0,0x1bde2bef4); (false,0x114d5e7b9,0x27ddfafc3); (false,0x2368ecd9f,0x77ff981e); (false,0x140cef41,0x1ea880f8f); (true,0x29e192ad8,0x7aea910a); (false,0x150997b4,0xfcced620); (true,0xb1fc746d,0x2540de7ef); (false,0x1eeb4845f,0x1b4c424f6); (false,0x109a09932,0x11af1660a)],
[(false,0x6f794683,0x181299cc5); (true,0xe44eef8f9d350305,0xb1b95871); (true,0x309c2ac0f3e6d6f8,0x24111d372); (false,0x1cfb195d6,0x167083c76); (true,0xc66193554a5bdb13,0x222d58279); (false,0x1a0604892,0x26b5847f7); (true,0x24e55d4d34c22ecb1,0x2b6991505); (true,0x2e681dc18a392461f,0x193ece20f); (false,0xe32efe28,0x1e6b81299); (true,0x16c93f146104d34aa,0x156a2f638); (false,0xa378b751,0x1b398f4fb); (false,0x108352c36,0x1cf8319eb); (true,0x14aa3ee3f49275fa0,0x201ba31a); (false,0x16f7c42,0x54bf2dfa); (false,0xa00202a,0x178d70c72); (true,0xda8c67bf772bd36b,0x1)]))]);
  (5156902474397, [(12048837557,1,(2,[(true,0,0x8); (false,0,0x40); (true,0,0x2000); (false,0,0x4000000); (true,0x6d2,0x2f420230d36); (true,0x3b8553330f1,0x380002818fb); (false,0x29ca1f2e44e,0x498825a8643); (false,0x480d1fb6573,0x4512e21e802)],
[(false,0x3f945a90b7e,0x46eb57ab7be); (true,0x12157d080a004ba085a75e,0x3508533c162); (true,0xa1cbda5d0f83ac3ab2d5c,0x1603476299c); (false,0x67508b331d,0x23c61c1f447); (false,0x110dc9c4165,0x13f7d6536c0); (true,0x16f029cc61ff536c14e23,0x39ff1fabe89); (true,0xc180e4215c3c88ea4d82c,0x336d4ca07a6); (true,0x9825d482640ff9022497d,0x1e87988c39f); (false,0xc6b9e97a7b,0x39798d1d952); (false,0x2c0503f083b,0x2a02a16ec15); (false,0x1784a1577d6,0x4725c012f7b); (true,0x123352d1ccc62284b9fa9d,0x1142957b5e9); (false,0x3f849f42f6,0x46c53a5f133); (true,0x1202122a68e896f8a0deef,0x3356d5dc1bf); (false,0x231f6fd3fbc,0x8488b83e35); (true,0x3f281a3d0cc2e0831ff0,0x3ee854c9fc2); (false,0x34bc1486e07,0xf6045996b9); (true,0xd99e23cf7b62b5db5f3e,0x2b2de4a465c); (false,0x18d85b5b762,0x3d538e215f6); (true,0xd85c6561acf8588acf3e3,0x1d2e496a891); (false,0xb58dcadd15,0x1fd8ad29240); (true,0x3a5859c82402ebdb3655f,0x25d172b46bd); (false,0x130f0240103,0x47599de12b2); (true,0x124de5c6b5b8d57fd027bc,0x22a0d81113c); (true,0x44fbd215e06f8e763223c,0x414fe385554); (true,0xf565deb6d3220b04e2a1b,0x22b63198e91); (false,0x100e6297c17,0x20e56bb7606); (true,0x3e414d8a0a5ff52d3a572,0x47ec933355e); (true,0x12999a5327c5c3483d73cd,0x1607bd44e4f); (false,0x677a6e0c4e,0x31061ef348b); (true,0x8a42d62b1708f5429452a,0x4282ef1d030); (false,0x3af33406456,0x3950ae87442); (true,0xbcfbb0d77aa6c29c663f3,0x1)]))]);
  (1670836401704629, [(5156902474397,1,(2,[(false,0,0x4); (true,0,0x20); (false,0,0x400); (false,0,0x100000); (false,0,0x10000000000); (true,0x5640d9a0,0x582f3708f61e0); (false,0x51e0e3aae2d36,0xe67205af98d2); (false,0x22f244d65a80,0xa0be5150fc4)],
[(false,0x1100d60be4,0x5e7f526c5addc); (false,0x5e05645517998,0xdd4ffd55cc98); (true,0x143cf7a29c03940274c32e1,0x355afdc1c11eb); (false,0x1df95147837b5,0x2ed8821b444c0); (true,0xe8225ef72a9ef6883e5217e,0xf312eb87adea); (true,0x1869f07be4ec4049a88d3eb,0x2d034678ff69); (false,0x15555273ae2,0x1178596d65b47); (false,0x336a77da4550,0x8191308a2c21); (false,0xb0c1b16a553,0x3da6476ef6e92); (false,0x28045f4b2e787,0x3d6ac778e36d1); (true,0x18f0128c3c4c4b16ae1b9c0b,0x2bf00df88547d); (false,0x14538fe846fda,0x2e200b09643e7); (true,0xe10c46376da61d15c232bfb,0x56198d8d40b0d); (false,0x4e0d99feabbb0,0x3f4e3b4dfcb39); (true,0x1a7eb5cff062b77820abe6f0,0x54ed8b165c6d4); (true,0x2faf4eefdc62751cbd002307,0x5394f4587f44d); (true,0x2e2f6b6a2302ce743fdc1164,0x2652bad517eb0); (true,0x9b5a9154ee977c2bc212fd2,0x4d8c705955886); (false,0x3f51a6848dceb,0x4b9d36fb8d9fd); (true,0x25cca5b8d40853c6dfec8189,0xa9183f238a07); (false,0x12d0e18db286,0x46ccb5b6dff73); (true,0x21239f307ab2f16d9aaaf7ba,0x1c8b309d09e2); (false,0x894129917b,0x1e49454fe958d); (true,0x6106b617b51457dd98a6ac5,0x13419c1cba11b); (true,0x27392b1be33c48d63742d9a,0x4b1e09dd29342); (true,0x254dea1fd904edc2d056a223,0x2038f21b76651); (false,0xaee9cdd2e74c,0x30ebd4424f4e5); (false,0x1932e5eb54eb8,0x5de550c2a9cc1); (false,0x5cd3e8298d147,0x5bb093609704e); (true,0x37948d0aa61696d65678ae0c,0x1c4fa1f39f794); (false,0x8706b9b89eb4,0x2f02429eae04c); (false,0x174469695a23d,0x312c39b848b6f); (true,0xffc4e952ed72ba0bef99e95,0x105a2066caaeb); (false,0x2d0ba0a99fc0,0x132a8aa9a80f9); (true,0x26db69aad9cacc5dcd7e3e2,0x5330111d1d1ba); (false,0x48dcd453f0a1b,0x5586132f71c0d); (false,0x4d031b21cca3a,0x5eb400413b1a7); (true,0x3b4b292d5d6f27eead1bec6f,0x214d082260309); (true,0x754db65c5661fcafed828de,0x3610c94d74c0e); (true,0x135336cf34d1925abbca73a8,0x5eefc9dba5c48); (false,0x5ee5b62602030,0x6f6a60827250); (true,0x521140bc2a4e1e653fa463,0x1)]))]);
  (3, [(2,1,(2,[],
[(false,0x1,0x1)]))]);
  (19, [(3,2,(2,[(true,0,0x8); (false,0x3,0x7)],
[(true,0x12,0x1)]))]);
  (229, [(19,1,(2,[(true,0,0x8); (false,0,0x40); (false,0x11,0xcb)],
[(false,0xb3,0xda); (false,0xcf,0x79); (true,0x32b2,0xa1); (true,0x59c2,0x1)]))]);
  (71, [(2,1,(7,[(false,0,0x31); (false,0x21,0x3a); (false,0x2f,0x1b); (true,0x47,0x3e); (true,0x17a,0x46)],
[(false,0x45,0x1)])); (5,1,(2,[(true,0,0x8); (true,0x1,0x39); (false,0x2d,0x36)],
[(false,0x29,0x5); (true,0x13,0x1)]))]);
  (853, [(71,1,(2,[(true,0,0x8); (false,0,0x40); (false,0x4,0x2ac)],
[(false,0x224,0x19c); (false,0xc6,0x352); (false,0x34f,0x9); (true,0x40,0x32c); (true,0x81147,0x32d); (true,0x8165f,0x1)]))]);
  (639533339, [(229,1,(2,[(false,0,0x4); (true,0,0x20); (false,0,0x400); (true,0,0x200000); (false,0x1adc,0x24ac4ecc); (true,0x46904f59,0x91fadbd); (false,0x22f0a41,0xaf027ae); (false,0x3237da2,0x85d982e); (true,0x3abfc50,0x191d6418); (true,0x21180252,0xd5f3da); (true,0x961b7,0x96aa5fb); (false,0x25380f3,0x4367778); (true,0xee5fed,0x19810581); (false,0x11104e0a,0x18e905f3); (false,0x104747d3,0x5097e68); (false,0xaa64f5,0x102c6f69); (true,0xdb97d6f,0x2161486d); (false,0x1d3ae509,0x2169cd76); (false,0x1d49d2b3,0xec2c683); (true,0xb6e80a5,0x242517ab); (false,0x2245db5a,0x102bafbb)],
[(true,0x6eed6f6f87db54,0x19be16e7); (true,0x1191de9eda80d0d,0x1e62102c); (false,0x18378aff,0x3ed5fab); (false,0x67943a,0x10f4801b); (true,0x79f3590eb67619,0xa195de0); (false,0x2acf413,0x1cb732ff); (true,0x15dccf8ee8b7ece,0x1)])); (853,1,(2,[(false,0,0x4); (true,0,0x20); (true,0,0x800); (false,0,0x400000); (true,0xd6e7,0x1a8ceea3); (true,0x24fc5025,0xc21deab); (true,0x7b907a4,0x18f09a26); (false,0x1051311b,0x1e98f4cb); (false,0x188f5b76,0x1f1a7d87); (false,0x1961068e,0x4cbde37); (false,0x9a7f3d,0x28e4762); (true,0x57bc23,0x1c168857); (false,0x14b25405,0x1dd52c0a); (true,0x2eb1f65c,0x7bd8914); (true,0x324bafe,0x1cff1c56); (false,0x160e9ee4,0x1e2346d8); (false,0x17d3dbc3,0x1abb65af); (true,0x257e35ac,0x2497c61e); (false,0x2320b035,0xf4320ed)],
[(true,0x5d435bbeb43042,0xc75273f); (false,0x4123d50,0x1f687a11); (true,0x18af6ed55b19886,0x23e1b36b); (false,0x21c6850d,0x353395a); (true,0x46d3daa80170e,0xddcd25a); (false,0x50a949b,0x125e004b); (true,0x8712018646d0a9,0x11174cb2); (false,0x7a9b2e6,0x15f66782); (true,0xc12004f3393b49,0x1)]))]);
  (65865678001877903, [(639533339,1,(2,[(true,0,0x8); (false,0,0x40); (false,0,0x1000); (false,0,0x1000000); (true,0,0x2000000000000); (false,0x46043b1c170,0x779e2cffbba270); (false,0x3d258bed0be353,0x67ae97afe16ca3); (false,0x2df08ac5249a14,0x68e58906a7e29d); (true,0x5e0b678d1d48f8,0x8a28039a81fe0a); (true,0xa32307ccc7e55c,0xd2733347613e64); (true,0x17a8981678ecaed,0x15dd84576b9cbd); (false,0x20b0930833235,0x8206e53f8648ee); (false,0x484066cba3fc5d,0x7a0571f4413e51); (false,0x3fa0e5967ae508,0x564bc81b7ece29); (false,0x1fd315447d30a9,0x80e3216569292a); (false,0x46fd931cd54883,0xc5394d969e0b7); (false,0xa639e77c3021,0x8ec5a63184d62); (true,0xae383a6f1135,0x8734a6f7eb076d); (true,0x9c3e3261e5ab3a,0x497772f229156c); (false,0x1710bc478258e3,0xc21be8056b05c3); (false,0xa10460e7f600e5,0xe560df2ab6139e); (false,0xe0d8a501efc92c,0x9f849272b7b1f0); (true,0xd97c26f897aad2,0x85e955d3a940b2); (false,0x4ca2100e630324,0x294de33a8a8ea8); (true,0xe94d87e3e0167,0x6a8d04699c4ef7); (false,0x30845ddc3d765e,0x1e8949ee7b99cf)],
[(false,0x3fc1fbfa4564c,0x444e024ec9bced); (false,0x13f02244cb7c05,0xca6465eb42ad9e); (true,0x14e17334c9dd94d17bfb609ebe45,0x421f33f000ea31); (true,0x23a8aa39fde34efb6677abc73d1,0x9b5ffa4123e5b0); (false,0x672ad9adb622b7,0xac1eaad9857fc7); (false,0x7e9a3d13fab0af,0xe649ccead27df0); (false,0xe2a233ffa6d26d,0xb65c5b26bbff1d); (false,0x8e1dbc247990a7,0xd9bb821ae8b700); (true,0x182a7931deaf6fe2bbaf9431608b,0xcfb5bdab93615b); (true,0x15fe09b193bb26dcabd8bc305e4e,0x59639e226c0b65); (true,0x412b76dc24e9cebda8c512fcf87,0x99c5827e71ca0e); (true,0xc0daa010239f8ec54050529f0f0,0x3e66ea8db9c46c); (false,0x10a414b0b70004,0xc486e176cfbf54); (true,0x13b01e456f008472fb6bf6087f5e,0x39e8cbd8ba1ee); (false,0xe54c00514d4,0x2b9a1658505ad8); (false,0x81fd8f47ccdf7,0xd6e88a60365447); (false,0xc55f6e4c05c3d3,0xb67c71f5143fd4); (false,0x8e4fc45b41f15f,0x7d096634ef467f); (false,0x42cfec063e22a6,0x946c1015294647); (false,0x5e240b86fd5d27,0x88a26b9a7c19e8); (true,0x984396b877de0d9b9b6eff5d9f8,0x78f701b4ebc838); (false,0x3e88133ea10989,0xe3e1cf3b53edb9); (false,0xddec1b5fc3d7d4,0x196fe366bd4445); (false,0x2c3df26f6dd9f,0x757500329b41c8); (true,0x70857689f83adc7efb3f5b3c17b,0xa1cf78126f730b); (true,0xd58b92ed77c2cf6a6298195152a,0xd7639825304061); (false,0xc641b5bb585921,0xca920e3b244852); (true,0x14eae004f12ed5ebd7a55c5e3deb,0xb66e83919a59b7); (true,0x10f71363b331eeef9a57c1e0f722,0x1)]))]);
  (13818364434197438864469338081, [(65865678001877903,1,(2,[(true,0,0x8); (false,0,0x40); (false,0,0x1000); (false,0,0x1000000); (false,0,0x1000000000000); (true,0xb,0x14dae2a122bc8f0313974955); (true,0x137b6658fcf779fa965ca288,0xb4ba3a759f65edefd399aea); (false,0x2db874a90954f6ee77e2968,0x133af9bf1620c024c639217c); (true,0x10909c3f5ac3f378daa3425a,0x9cda597d362d02ec0376106); (true,0x44e0acecc1ca2f2a9869432,0x11a923d25009479aa5bd3a56); (false,0x6fc4b407b92432690fb883a,0x82c4ee832a1dbee2fb183ea); (false,0x17efeff9c33a356055be395,0x16c40751762a158146598ef); (false,0xb9b929b76a97b3541559e,0xa0e6c46e78b6bc96c855d43); (true,0x487aa6a3057f9c22bf211af,0x232a82cef8b2290a69e14b43); (true,0x3764c96634ba38d3e362b0de,0x50f43206f9ad639ffe761f4); (false,0x92c6f2405ca367b0949073,0x195ff7d449524e1e64f567d); (true,0x1cd7796ff449006c2cccd7,0xbae36be0659c6755704a81b); (false,0x30e40e4258e9b06eab001c8,0x166338ff77a549b4dadc6a11); (false,0xb39acaaeb35dcbe7c6a642d,0x15a36daf65b72fa386342e94); (true,0x14f91e1fa1451dc095409a6d,0x1944078e383323955873b653); (false,0xe4c0cc0e3ae56a28ed454ee,0x2089ee5590cc9a8b145737bb); (true,0x2f6d09b1fd53b60bb021f4b4,0xc551b4fcce88d05bb9446fe); (true,0x6d0052eedb5d2ae7f5f4557,0x2232b20da9ae4518ead09591); (true,0x3462d011b3c28e5c8321dda8,0x32f6c05fbc1a2cb1b3cf9a); (false,0x3a2bd2047c5b7de8a6e4,0x2c473944cbd9b65c281afe40); (true,0x57d1e8dd32ec616810906aaa,0x266a69aabc1e59feeae67a96); (false,0x210d5aaca497ed41c904705c,0x15a36c0d651fcfd300aa8b08); (true,0x14f91af55434bd37cb797df4,0x1d696404aa38a2a39547810c); (false,0x135fc873a63ac250ebdaeb68,0x19d45c3ce78d16ebd4e75a28); (false,0xef13772a1cac9820b11a785,0x2a413d8aa09ef172ee7da75b); (false,0x27fd13bbeb1f722cce131445,0x28265f7889a1f76834186b4); (true,0x483518ff6f1e76a21896d0,0x23cab12497eec352eeba050); (false,0x1cb0f4ac41c9eb05ed450d,0x1d6e4eb57857e18421a46d93); (false,0x136643400d3b9b9cbf10b4e0,0x2bcc2e8caa8f9d4ff9a16989); (false,0x2af63dfa822b7b5cbe343303,0x1fd4e6002d561752456e60ae); (false,0x16b18712943807c5f547a2d9,0x25148b58acff5af41df8c68b); (false,0x1ecb4dd758f5c9ad8b76b249,0x19a3e92405bebb4bd6527e50)],
[(true,0x17987979838d42b305e796099d128812f9b53476dc74284,0x1377743336b03795709a3dfc); (true,0xd99d28ac293e0876f5cb6568b4aaff3450353f59aca643,0x29dd6322677c53601f9b8f1d); (false,0x2740f437802f2c02c04af08e,0x2a1ccadc2fe323cbf7f65a7b); (true,0x3fa6ba2cfac5d35308782a37ea8a3df6fe25b700efea719,0x1e1b137ff36a324a4ae6d9d7); (false,0x144ca2dd4bf1dee9d202bc86,0xb447ed7839e5ced0e9416cb); (true,0x48e807cb5b25b3e29b04e1208335bca8bf3c08128926fd,0x1cfc319e15305a5bb2514c73); (false,0x12d0f717f813853e86abe4b1,0x2a2849632887881fe9aa8518); (false,0x27cde69b3318294579850bf5,0x59be5bf25ef4f4c96b71ceb); (false,0xb4616fd816a319ce96ed38,0x75c33d0907400032cdc3981); (false,0x13698fd4dc80ded38acdfba,0x21c9b255c4936e4d095aba87); (false,0x199187769c290e9db93f7db1,0x256c79b3a74dd54db5dc03a0); (false,0x1f5e0781420700aa501b92fb,0xe59669e756e8e998d55b865); (false,0x49c898254e9532b5b2d716b,0x1b0aa2759336eca181645bce); (false,0x10609f877266b0bdebe2c7e4,0x1ded7c80a2b12c7bb762ae60); (false,0x140f56a674967cc98fc9590f,0x21a5825f715c9f16a80314d1); (false,0x195ae00fb0e0cd4483640667,0x254b30aadbc19fa27ec1011a); (true,0x31eafffc5ce7e6c153d5f378bf80ea9f6bfe9ec74632bfb,0xd367c05503bac9d6419e6a5); (true,0x6440c4664543c9edc8ed22e5cf39cbd8ce2120714a81eb,0x6666b9237bfae9a5fbcd45); (true,0x1785a932989b9adb057b934cb58c5ed7ffdb6ff6ff34,0xce957194f4106347ba8851c); (true,0x5fbb72193a4a924b25217eca541043d964054a1f693539,0x174e96b90d33704bca99dee7); (true,0x137f1e8174829516e471d75aa135f925c11e6b34c2a1bf5,0xa94bd527b6649b7cab81bfb); (false,0x281ea3b9d927182ef0193c5,0x19261ecd3a311dac4e5004f4); (false,0xe2a475e02e3f63501896557,0x273788c4a10bc624c6c33619); (false,0x2272003f8c467cecb5252cbb,0x26f062ff9dc36e7f330c116); (false,0x21f5764d8dfae646e98321,0x1ea1aef1dc016f24d376e6e3); (true,0x21ad21fcacf7b3bda6bc31e2cd97a944893fe786d970309,0x2150627447f80d425b750ae7); (true,0x27d5293dbc79d10a2b0851ed90a39dc7b0de99d5fc54bad,0xa241be77843f0927716a343); (false,0x24da481cceab67f45754290,0x285629362a5c555ffa9ef2f9); (true,0x3a65642cd23d92664ea6453000a3c53a90ca46c7b19e31f,0x75f2340be930d65f861b611); (false,0x13790ebced0e5b0ff5c7d3e,0x1b3f02289bfe9b3461e9a7a3); (false,0x10a04d6fc92e3818b204898f,0x1e01d89f21bbcb33354f621a); (false,0x142aab16cb6ea7f1e9921e73,0x17bfb88f93eb4891faa4a291); (false,0xca1c75bce3883dad5d26dcf,0x2452589b30bf4ec4d0dbca32); (true,0x2f59858eb29342182b4fddd61b6c666178db3db9dc7b46a,0x21e9b5b44c62f77b58be4e16); (true,0x29471c539c42a6bccc23925047af402b6944f1bb2126109,0x611cbea0101c8219feaa757); (false,0xd337db1b021e02613e6f63,0x174fe46632dcb2d184f7a48e); (false,0xc2be90a03daa686d40ba726,0x1b12d250a91c5ea809f78c5e); (false,0x106a8bb29c52c62247b72f8b,0x29b1c7dcbbb1efce4434fc59); (true,0x3e64d8578babbcd67dd9f1afe7e60bd89c02135084a5e3a,0x2251208b9ca0ee7b6ace2256); (false,0x1a601a94ac44f9ff54d9b17a,0x83f3c33f2d6756b21a262aa); (false,0x185f4e14ecc2f3dee1f5acd,0x4da7b262650460a5798fb7); (true,0xd86f13bf34401bfbe11e33f36b4aba9099370b29839,0x12f0b8f09b9f2ff90bd7e637); (true,0xce019961406a4a154b715eb1a38f4b7351004f0046f81f,0x127829bc6a9b3d50afa90311); (false,0x7a3d0c884a5784e80b94db0,0x1e19df92d17a8bd855584f71); (false,0x144b03a5a428d46f87d00f84,0x16668b3d4c5c3d8ee04830dd); (true,0x120273acec5abac24537efc460bef9251d4e93f31015217,0x9f6d40fde8b4957e29ce599); (true,0x3903cf3a66d09373b2cc64fdffd887dba787dfe34a257d,0xa18470a66e409a1ec145373); (true,0x3a851c413e6cc5b10478eb42f794fe04df619af3926bae,0x9e16e62fcf21495b4bacce2); (false,0x22fbe3c20a1d5cfa90e7f66,0xc78928c0f6bcc9fcedc74de); (false,0x37bb63b437b6b3568684601,0x142eb1294b5eef14840542a3); (false,0x91f6fe17bf11d69eb010126,0x18a2fea047d7d0de7989a763); (true,0x15c8df250fadbbab01c859b376e38afe813d7aa3b43098d,0x1295d3396a19afe2000e24e3); (true,0xc65ad37040bcc675f0cba4d2b973a21f7ec0aa1ec05600,0x1dd1ccc1a22f7ab9c010bed0); (true,0x1fea1912fba357e89366aa6744f4737f04f951441b4b6e8,0x174ec4335b0352e468e4b618); (true,0x137f6a97956a5e9c0a30d29eb5fe6fa05dd6699a02b57df,0x1)]))]);
  (21888242871839275222246405745257275088548364400416034343698204186575808495617, [(1670836401704629,1,(2,[(false,0,0x4); (false,0,0x10); (false,0,0x100); (false,0,0x10000); (false,0,0x100000000); (true,0,0x20000000000000000); (false,0,0x400000000000000000000000000000000); (false,0x54,0x1f16424e1bb7724f85a9201d818f016ecef7c8380f271055b9db6b753fffffac); (true,0x27f0c9051031f131324df9a3e0299d70be089c731e7313fee87652d1bd24e936,0x502a51f42458782bc207cf855e372a687ff6d8c42c419bb9c6170a5a2db4dea); (true,0x1099a0f45b54d51faf757390cf237645d15d901ad321093977269e03a01d522,0x2be20e9279c66a23fd0d1cbfad09fe4bbc4b4dab4cab5f99d4dde60702235ea6); (false,0x27cb5a0a66f0811efa25b6dea48c04459a4e88569b93c3da044d8208bd1f4aba,0xbdd5b8c30bdf94bb8777bdd8493d21600c9d527700ca219ea11448c7f4308ea); (true,0x5d16522fb3a2160b2b7795f91eedc70c6823fc8c7175fee58536e79fb615608,0x17e9aba00b2796685fb3ce6f89ab03537848110edfde29831f8a8af2323595c0); (true,0x17a20928fae3937658c75e74f0b19be5d1cff041b0b3ed562bdbe478f8344d62,0x2e849577275ba14a7451c95bf850b96f6c2f6b81c5ad2e5a8d700b21d9fdd29e); (true,0x596ee03b25e2352774cad45c504e5a6e28ade65e8c6b8bbde578e8597ee1e6b5,0x286ff555d4541763cb16d91899770419c4e647440dfcd0fa28cff3597c454c53); (true,0x4394ad33bb83b15eb1d1a48a78297add618736a6030e1de4d12946b30c634086,0x27d438ab104ed3ebf764eb4e572450df28c8342751e9599894f912ae9a9b854c); (true,0x41900ad80b8634b056e25c1d2c811336a1377dd00198fa13bffad5225a2a946c,0x259323d6a5d36ed86110f8bde37a5f1e6e9349fd44835d21f8d16608a4b588b4); (false,0x1d2cf79922bc377a9c952381c4dc46152013c067d54a4f7240e6dc52cd359327,0x1ed3d3c9faffb8f81327039e3284507b707a9ef97c4d4898cd012a74da522b69); (true,0x2746cb68bacbef7f7cf8800c9037a27ba113d73753e72860257dae990f442bc1,0x59d6b4bda2d2f1da640d04208a1a5097c5e17b58778bb6979fc427c55fcb661); (false,0xa6c8c125b643707164b5459ca7fcda762ef4cdf991c86ae9d68411224b0384,0x1b4efe00c0fac40b83b501445d061beee4823eca013534b960434c63189b0d3d); (false,0xf692b754949de8c8e8b72b5e62a8db7116c1299436d18c530a84b3240f7f242,0x1ffa078fe5d918a9aaab015dafe94d27f612456cfde9d736af47e15c57954e47); (true,0x2a4270d51d4b8692af5580ff8f278834d22b1617ba21d0c369f38cd46dc43c48,0x1699e6309fdafbdb1905dd710110199fd6fe4250560d1841cb00bbf10366731a); (false,0xa8e46c86b189543b900dc9e05bf44b45be0441c5ab986263d1dcda0e42aed49,0x29080d35d5d00e7174081743fe7e369a24430d1636af2ac37a2c18a6344d715b); (false,0x22ca6413bddb747ac89df29d8b178040a666de229196dd9a07ea570b11327b5d,0x388cc93cd71f34086b50081b451638676cf63673c11e7a8bbd41d6519bcfafc); (true,0x842ab4003d3ebfe0363a3e5a1efb88ad8e5ac84f012660cb515a208e87fb56,0x7b89fab682ae838a585432311347dfc6018adad7d20c86142bdb89a71da54ca); (false,0x13b61a2af3d7947899bbebaaa0eff42cab97471778ac7f7eb45133de963b0b8,0x1917a9e0145c7ffed01a073af77377e092322672ece04b02854dc1846eb97eac); (false,0xd02d6c607cc49c50e4e464ab60520a02b7284ddd3e759d1e98c2355fe316fb8,0xa7a41d3647607231e0f3ed842ee89d0ea76784318069cd9d4c52de9a51453d8); (false,0x244bfe22482cd36186c518c3f823b3bae5e89332dba50985dc15c704e6b24cd,0x1cecac43b84653358a77e5e75ba5fec64507736e67ba73e8a12ca33a26caa173); (true,0x2293c384835092e4ea6d78f998cf09d548f6c4a48800051c9c028285bf7e0ca3,0x1fd9f22abd45883d87045ce02bf584e0f008f7187c926d96365fd5e3171da6af); (true,0x29edce298502e343898a29e4518036500c7a8e53dc584f085eca9cd86e01293f,0x167639e367e4c8b2d9542c14196cbc977783f03589b00980796ba1c8c659ae03); (false,0xa6d0eaf3f92be15c634cfb3edf0b91d56fc02e6b0a037ca5936a214f50d623d,0x998cc895bfbb1bfc7b5b1d36411c6aabc814e273eac2f16cbec8b11f350b1cc); (true,0x3ce71e6bf5c46b73288d07658cb8b3bfbc5dad4d516fc97c97bbbdbfa8a7fef,0x1c931819f1481d81d6fac25e8863d4070e8a1cfedac03e37f5f71b18bb6cf531); (false,0x10df71cc0b4f1338e461956448af8ad61f0a7b6cd80f7bb5458aa3393c399373,0x1b40adf1b365381404dd8d984324d04ceb7ac09240dc0fb49ac544755f53fee); (false,0xf5908463ec975c2bc853e1c6617332343c9acf9026125b87c3d00b991dbe2,0xffbd2805b99ab43495149b8b8c836d91c49e2e449965ce76c62e580dff12562); (true,0xa8f08d13e1bec84952cc42e1d997f65aeba8c1b75afdf0f076d9983ebde3584,0xbef71ddef1381b26212f0bd21c44852baf90956cfb4bc917e8776149c14bd84); (true,0x5e32fb16fe3a505ac42ae306ba9482740fa30578ddec2ea5b4e6fc009b1f80e,0x25e91abdcc8ffe4a2b8eca4e900ff397a215b1a91b6839836e5f0c36e8266012); (false,0x1db30fad8fe4b9795027dba3ec5d6d8990054445c5f27f916fb5fc6a33325c35,0xb26f80c88215c55b1e5ccf60b3a4b77019e29d5fede87679f9fed2e6633250f); (false,0x291f2672c8aba2a3d7288d2beab54a46de65a276716af1af39683f9b292a23a,0x2af45096b610df2a50cbccdbb98dc8c151e6139b7543eff992ff3dc5aac4b4a7); (true,0x4c4176c97e41e14503d9f56f3d939d11625d38f9dd114e3c7538b84f6ac56989,0x1b1d034453419b7da0ac2ebba098adbe4b86ad33c70eaf1303cc6a46fba12059); (true,0x1e61ecc1dfcf4748e566478a598f5dae7b989c7a4f10d2ef80ca1fa2d38584d1,0xa8675b5857b90c55f656aed2501a08f9789358ce1aa79a37899e9deb08b3911); (true,0x4941764ee0cf7d36ceb2aa46c0a21af36c24f0ad16afa154dea3cb314625c16,0x1c85c4cf4552fa1778bb4b123d08d7f9516c1ef210a38ff1c5dae9ab15faca2c); (true,0x219f71aed631353957608d5cb202496c8bb4fca32315100d1e091994e44de719,0x26942e9f0743628c05cb0b3b2b069a3eda34df3b324c8aced8d0d0ae16e50807); (true,0x3d82f13865dd35716d140f3aca744f635c4ebfed910d9d9cee24795120dbff69,0x60f65ad942c2e2657e56fe65c07ca391f6713485e98dc19f69e088a90b0e0f9); (false,0xc2485cd643fd5db267dbe5cefd6b7a925ff32454faad41f9f99c52f63ec2ea,0x1d2ed57ec54a6b1d0bbfc10d8ea62d237f3320a06c0ed8dd8d34255e5d5ef47); (true,0x2332a6f47932272e24b023a2660d1d80eff22de0ea49086a4da23deb9b1bbc,0x96d47e9290bc46c7d512bfe2a90d9ac61d6f41bb14f89b832a0fed3f7fc2fa6); (true,0x3ac3ab73f55be2652eea19927f3b5707eaaa07793ba56285d8176dacf6d878d,0x92298eb62c3e68928db595ecd4613e5722d5e929a9b21cda775332257ef37bb); (true,0x372ef7a58d262fa15c3fe523b06c0961b3a3f84d75406d900e64be2473b8a5d,0x1b6ff6bb37ae93fe7c36964919ad3188b9509e8cab83feb370bcfc2bf35c3ad5); (false,0xf8e787f967a2bf3fc9a426cbcf9f96e7df3253fd89026b95b3f61a50079ab71,0x1adf8cd88e25d9d5060283df4f1f4d5dee43a4846eee4831010c4b36c42389c8); (true,0x1dd8c9b095acdd5eb41fb10934e5c8a386e6dc915d58b7ae6d71ecede70e02ac,0x2abb890a45db4910ace668566f4eef6e11829700e86855405caa4c5f46a155d4); (false,0x25bc31717a1ff120ee39d244c25487585908a0af454d678d92bcced27beb984c,0xa4ba9005a694115a04c8be7cb6061c2197bd2c1615b787a610156b74582df44); (false,0x230bf352106313fd6cad7de6583505732ae4221d7940a39ad42e90af43807de,0xb983469e2167b4b99aa26d22f0379a08c56372f4c42f52bd67b4795178f8232); (false,0x2c72c805afd8595b9d7245e7c26300fff205bba63a7d05384763152db5add40,0x1028e9262999327a521ff219bc8f6ed272f6ef328335eb2d6b35b78cd6b7f484); (false,0x565776d2d516891eff410c97edc452f05941d6bcd4ab97dac79df2762d6cc13,0x5c43549a6d67c17d7838d9dbe71b40318e591c4a7f5d892e20c9cf9fb6d17fd); (false,0xafe834d5a933689edc938697c32741d38f6ba1bfdcefb9949cef4cf00fb93c,0x9af26f10deb42c47aec7c09e3c50d96eca3fe988eb6ba69dd66a7485da1b6cd); (false,0x1f020f6f1bbfc05851c00a1870302516ac61370469aa9f32d4f05c071f5e0ff,0x23370431b79b7e531906c6fe29a53e6c5d4ae53e40806bed9148682be06c3f2a); (false,0x19a042bff77c3a6faf417e2895e6662cae79789e7c2758e6302d8efd9786011e,0xacb6e302def9cd025868bddd92001c46304b20e9d96bc6d336f6a27237fb1c6); (false,0x2686e933dd7fc7f89e7a2710451eba2e8c6ea43e5d88febc2733fc6b122761a,0x23e1681e1f39a2e4a228b10684168c7d70f11e0d0a6f04e4d920b34f0c4ef0a); (false,0x1a9a97767b81ac9ff6c3f88b0bd9ccb42aeecb8ce093a7458753de838ba816,0x305dbe727bcf84ce10f8a0c7c852b2e44ef22d40a0518c03bb26fbac82f8044e); (false,0x30572f55ea706ce0f51beee5e908a5389e7088930f75d7b65a54ea3feac1ac0a,0x23c3be73601566a595113c456da3b98a29cfbd55c1f4673793cfba304470dbba); (false,0x1a6eace0aea8ad2aceb1d74f03838bfcd6da49b694f07fd63c6af7d356270870,0x453a9882d44749eb571c57968d1b370cc638cca10ba7e66c3983c2f7930bab4); (false,0x6309c7c2d5fd83b31e8398091b7c69d17de1734fee51ccce1d33bc09ca9a1a,0xe734dc4d1ee408cd935cc5e93fbd80438724a000e17c092a39184ba49df7476); (false,0x450a895fea3ab32ac993e02cde95057ae639995957b47f1ba82e27272f492c0,0x25f57f276182d38b9a5874c947d0f102edd81a10ac5301afbbe1eea8f39a93a4); (false,0x1dc67d70e9a98edbfb75ca149d9f9d8d2e3f17161d999a0185a1d2c1ecbb012b,0x1146016ff822c55cee6b2595e0eed7217b97254461cb588ea8a1925411babfe5); (true,0xc54de9a7dc273336a36affc97a38a51d315544a650542ada6491e1abbc0a189,0x4eee47c8ac7a2c7c5b91be00802db2533c2a74c16beea27747b5bc979766429); (false,0x80bdff427964316709ab662fe5f3180c81aab9907e14b969497cba78d3dceb,0x4599fb2b25a623576dd97659612e4cba60e26a4a0deb1717df5b209762831a6); (true,0xc836dbf781d18eae74e5b00f19ae89beeffb853245f614220dcd080af3ba25,0x1cacb1514530e2029029f2a71580478d8fab06b7033687f89b563bb7700e3523); (false,0x10fdba795ab23140813ccc24f6646108501a97260198b620031ff589c2f5e380,0x985cf5bc4bc4342051a58ed47bc035dfa4a661278ee5aa3240cec00b7e59f49); (true,0x3bf709b63ea097fe621709be10b7902d8989493a18cfc0a1f3ab0a08bbb3c71,0x11c5b884d054374c53f59df572b2f3d35774c47e369910c4ef5a4c33f7b04931); (true,0xd0ddac406c2c0cab2e2db1fa6a9324206523f6e0c152333d7cd936a1a100c4e,0x108b1c1cafe082ae2d72fb2fa7216036e8c1ff28274890bda1cf7a915289ea74); (false,0x5a7d458079cb9917fe85ec38a3f26394ad9fdb1d7d3528a8945e01a5db9056b,0x818a4b90328fdf956a0836478d9084bb409bca6addb0b44354af34769273f25); (false,0x15ac43fadda8f83f08d1cd10ac9064fefbbea1d879c531f9bb713a08f9e859b,0xd42588bb48d93d90eb1025c00af81b758e757c9d32251c885bfbc73c73ab5be); (true,0x74412f818897f4237562a4e3a7959ab0d5201f9fa9558bfce45acd33b90df37,0x2c941606dfdba6b37d40a479f3340b327a2f6516c5aada1a0390bc4b2ab92d1); (false,0x2910cb250477061bcc753722cad7fb02df9aa3d75d0acc4ac800c45619e558,0x2983981c3e4f1b25b85217715e90a55bf2ba51b91ceaee0243e79fe1454f2949); (false,0x239d206851b818d7841460b0f94fbc584d73ed7330c84b5097aa8ce220b769fd,0x2378a0fbf0bd94ee3b8183d18accd87d158d23758aff8724ae7c87878aff0cd4); (true,0x340033c4414bf3560d4e3c2572019bc25a22496e43efb7fdfcab246ca63bfeb4,0x161397d7b6a7c962eafa957d1b0a32896f745055d3c9b70c52d1467cd7bd206c); (false,0xa1247501d1876575b064aea5acee587d9d4f1697a95d874dbe4948dfc892c7e,0x1f7cf997edd72115f188aa17b22b7beec8f1765c29dfde0ceb5d60302f0a0112); (true,0x28fa6d888a96b971e34f4c73e591618a591bb26fb9494d04c17ae09e2f66b1fe,0x2da0df3d3aebb0f2085397dbff477477884c767d9b19ba088813b4bb136b988a); (false,0x2b05d5ee511682507524f512c7578a8187ee5d5136b3b725dedbaff306c0ebee,0xfe6f3fed7d9fdd02e82261783ea299b5edda24c2950677615b742ad337f3e76); (false,0x539c42dfe73705aee8651b7df305ea7afc0e4a7d5a4baf4e5702714fd464b10,0x218f6bc7fbf127751fe1e8324d402266a308b6e2541e1277819bdfa0f0b1354); (false,0x17463db1157c90b1d2fa449cd5283b20c6e86096e2a7a8e75abf7ac7ce535e,0x7fdc4a4aba8477fa63fb19c64c05b9f28fc20fd0f50e80c2fe912319adf4032); (true,0x2a3aa05c315ce31d1513e726713914c71645bb2a5c239db50f4728783ffedd9,0x2927d73f6feb870d1c806d17b62278e1f91efb26f6dd969a98624c042a6a25af); (false,0x23006173d6b7dc2bae9f6b5c3e238e84536daa6b1ae0d689ab5cd5a6f4864881,0x444c8dee540a9362c29a3922151962a25d3f6218a19840771394525c1f1c520); (false,0x6065465dcf471ed5a2058e219d77a1f108ef6d55ffe782584ba54a0740816b,0x254ebfe388cba27ed1a8713bd3c18fefa54127616c9f01779a4bd4bfa6c9c295); (true,0x398646f5cad104b5daf34f65c834656d83dbd9c035027fa71555c830cb1cbfc9,0x2ffd59266270e637e5350f38f3479c4ea9a3f636d98cdc185b2799fc80a395a9); (true,0x5f2e7dcf17cea84a294049f66697126d51f6536c4358c46d8d1c0bbe27a421a1,0x2d7aff9a7731d9f8fb474912b409bce23d2605e0f6018fad3af3fa19c1c43181); (false,0x2abe87a3c32a5d0604a0b81d589ea80d0be8a51dee93c2d2b55c60ca08ae2fea,0x1132e94357ee36f9e3199198e829fa98ce90e1237dac113ae286e51ef06c7317); (true,0xc39aa565aa384e69234e9d2a1e96c4fcf0552f0f23f6bcc53a1c82ecaf6c0fb,0x57b73af123d4fbbaf291bf7df59b2df98f68996f09c95ef807e2605c3549727); (false,0x9efeaffd796d08994e4ea1b55621d81cab0bd8c5c4e9a6aaff9e546f9564b8,0x186f4ce53beb9d16d1ce4906618dba9a7bab2c3852a0361e901adb560541a339); (true,0x18ad0d187f8b35700cd5c3bfa54679a282337afdfc7399c03657e87230761924,0xc2308160661be137cdf0cdd9f6a1a52a4fb12270c51bd0b97cf1f5119912c3e); (true,0x616826030673072de996f3c5daca9dc7b2e61ef2be083ca58d6b8256d5cdc9f,0x5101d9d2d37ab2f9d2558f818d7fa43cd84a1883722125a7339bf1f0665e169); (true,0x10f35bde78efab151a9d646e933617ada01b33ea3a721ceeee325ed8c614366,0x1f8669c708aa07d47d87c55412469cb14497f91c06cb0f065165c265f24636bc); (false,0x148980fdecb02127af0a0581713dc09c39e4d9fd66296745ae7d1b4bbe302019,0x5df47451f41b1e86ad3dd2e956b908860db99ae6dd1256aeddf5e573c53b9f7); (false,0xb66aec244be11fd820a807906533a145bf0de4e97048ef2b795734232eabe9,0x2f625cd2b504813905dd291830b76c4ef5cf44f8f0753f7ce072584652124068); (true,0x5ccb943da73e5eceaf79e41089aeb09a4ed6d59d440f369848886c09e7d704a2,0x1d09f7194b36e0f9d4068177912f93f5d92df6053a36e883d83a2377b5d14fde); (true,0x22d9efa242ed428944db9bb30a812ce9bc25531e137d085d43659de132be10e6,0x116a1b8c508946a9e905f5c557e634446487122b6a15109b3e39524080f7822); (false,0x644502d695f4a6145c40972e2658cf09bed744ff9093a7d8c2c99c9153558,0x1dd3706b7e8cb9b46f58c795b3a41d6fc8400ebbde599e0a871b6ddd2346af2c); (false,0x12620b967b29f82f221eec4f0472a0b47c752a7264bcefa6b112b2dadc911b82,0x16184f8a511ca203e27a5e483c4e70c510f0cb70407021b3df975f178f5c140e); (false,0xa1695af7d54cc90530df5246b46fb911f2e3d857a5fc10c06ff34543c56b6d0,0xdd0cac5b4aa9d4b927e5f7ddc3b593492060a248b44bd9db71974e2d34b79f4); (true,0x7e377f921ea9bc738d7422de5271087c72ae4df4ab49cad68b46627996bbd48,0x1321fc4a67b7fc2f06922973aa31867b6dfab10dc203baa6add6e83eb4b563d8); (true,0xf210cac51376712073fdfa9633f1d7b8084a1349394f6c2ad3c3a9088034fc3,0x25c0f27429979e2add467860ffccb1e1f55d32c63a606f63bda821cbd4be3cbd); (false,0x1d7445ac3e5c1f63d92475bade134a5f69f135d3c46820020116d7a6adaf8cd8,0x21139d34d10bf1f1f9211b6c26472bc6040725e6b4a66c1498dcabfc114596b1); (true,0x2d3782cc96d45ac9ca74598ed7291ffc32b659357b753f5b6b900376480994c8,0x1bf7c2b243c62e922fdecdcce19de0cb83c752b26f8cd0d95fa21102643237fa); (false,0x1029f2c022664352502576dbd94920d6d7c1e369e480b8d5a080ba21d6c3b5fe,0x9c401e621ebac76f2d700017395953e5f8e5461fb0db17360338de34321aa26); (true,0x3f105a41a743667ed6aca1d2f1fb56233b5281fd1ff3eb8e635e28a5b9fcec4,0x1baf3a6acc4fb55bbc039f5a31904cdccb37157dc8169be7cfbb7ad44a252c84); (true,0x1fad1126a8a4b4216d502bacb83c52a44686e880aab8aae41e279d10bce4366f,0x2aec59b4827ac541a805a1824208cdb236e8eee89cd5233d11b20eae9ee711b1); (false,0x26129920f40db93586114f2c03f8a0e19650b402e2dd057503d09c3d08e0eb84,0x1a3c73b98fbc95ef8499c884f0faae8e341152b3f1ba84f5a51d692ea1c610dd); (false,0xe396558f985642ea4f3c4a3a3b5512aebf7c9e8ac7cbe5f9cda3452b527be39,0x2930b89c81fbf45bc9f7ac8f7e394c5bc25d4d086005a18766a8d57cebd0a090); (false,0x230f7debf0fc390dbfedccabdd8c1da3295ba891b21245754cf615b6ba220882,0x2d22acb686612d8b02a3e523bb24dcd13a2995a1a7f5d35e641c91f71492487e); (true,0x5432476aaded641c6df3d600f0a1e0c38a29ccc330a5217b759eda2c48ae5ffc,0x200fa7f521c033b7c98d9476fb319120f919ad2952540c282fffe405fcfdc0c); (true,0x2a7badabc16719d93046b6a6fb3a1e9f44b28151b3947f98667ad90046e006,0x28a25467837961c9f2c642d38480ece57346695205eb6a4dabac39dc60d2611a); (true,0x443d73c000fb9c97d8ce2111b418189c7371795fb9eab1176ac335f5276d81f6,0x162e3d2a695205d625500c7226e1e790c347a0a61b571aff9c93eec01f8beb52); (true,0x14554ba002aaa0de5ccb62390e318dfb14faf5a65649469e9c3a5ae91734ebdb,0x2a1986352faa660de674e1db854ac9a6fb49355fb0701a2fa7664727178260ad); (true,0x49405db9837801f17b8484232e3311af2c1a026910dd143334abbf2646a9e61d,0x2a2539596f5cbdc7687f1a55d1510fd278df4808aa2c4822608b4a6e5dc283b5); (true,0x49691a2eaf660e4509c039d35ae8ffa0bbacc890297db8c2ea2338c8cac7d267,0x2fad08a2e4dc0134220d38511069dfbceb51a8acd2c9b65b298583e46d65a98b); (true,0x5df0f1da4b19d9d7d984e783b04f00a72c234abeaf60bcad3ef9fed1b51b0c7d,0x2bf018c536101c33d8a85f5ee4e75d93307470664940d4f02473d16146d29675); (false,0x27e4d4bfddae6a078e3a6788898be337a11c7e9402f221f15d27b255c09d0ee4,0x1338e1d7edf34f2da7a9cf8ee1157221d724411a625953b5406834f5abc44295); (false,0x7a2ac27755d630e63840448c7699a1f2135a00a52d39c89c5023c4a0cda86ca,0x138635367996575e997e25593e9929272e4c32d8c12c75981efedf5a69ea3ef); (true,0xfc12be336c23274c2e8cc01efed58ec3304afdbc575abb7793514dbb3a5e5,0x1b0f1ea93e57ea5e04f7adb0aac92fecda0a5f23ed4dcef8fb21cca2e448cc5d); (false,0xf2168ec8b3298c9e9e84f8e3337d6278f7f0aaa82942d2b41805a02ecf17b6e,0x915f726ea6abb79e12d9a8d67550f48456f7857fa6dc4545c47ba893282de5b); (true,0x3696c429ff9d7bb17b67a8cd28b80f03c61bfba57cc44f46e09c8999e7b3ce8,0x2449f35d8e0f5e1ead43536567953d5f3aa559af8f35cd8c62abe36524a0abca); (true,0x366d01e8bce1677a0487584a8ee701b6bcb1717fc47480d6aa14216b5798c94d,0x267e679efb53ee3505b07a0f58142c52100fd5bdab57c9d523d016bd77f62d7b); (false,0x1e9ec96da66acd2ab82470ebd9cac9099f4ddd37edc242bfa8857d84f5e1c391,0xd2e425317eeb6a8de7093a513d9356a58ff512c0c6d102cce1fe081e496b588); (true,0x72e1fda7aea1993702f22c18241a56478f98150193910c4ee3f2ed897ea2f7a,0x1ccd95ca56f8c0726c483c89deb791afa59e3e2f8cb032e0816dbdde00490106); (true,0x224997df501d0098f9497a5f0e8803ae6ad5cd8adfdf6f4389a2fecfa54b1f19,0x10516d5ceac14dec754aea3044b59feb3fb0a02c9dc63b6087013a21158ef92f); (true,0xb01515a129930c3f2e333f5a6bbc047263b4724db5f88ac494b258111520aa7,0x25022e5a90deb8f01327d6aa17f9cb27b7fae3dbb10f356fea4b9d4f900ee29b); (false,0x1c4d8d12aa8d8a4f8e1ba5c7b6f791d91127b7fb544d086e6c0f316fd76ae6c4,0x26b10b90d02247c9dfab852e5c60a09235ccabcfa212874b398139225a1f2315); (true,0x3ddf1e0d4554d03f826761970ad5e381c7dc282a37c2c2e34548a32d9ca73e25,0x1c37d8bf0346efddfa65f85e35bc75b529510bf0ef125ee7ed64a2614322414d); (false,0x10745b363ae12bde93542ecabb53bfc799a363327138d57abde0c8d9949814f6,0x2b10093311dd9c55c1ebd06e38a296b946dbed415a277a237b950f5b82841c33); (true,0x4ca40364ed6de43775e421d2425acc4d3c3688506a4a39a7efd281bd0f10167d,0x907010889ec697f8b556fcde5c1ceab17f4b0864e40379405b3cc8c88564dd5); (true,0x35e390461c5c6384fdcc986f0a6be3e36733d14642e074a4e6466f7bcb4a5f8,0x569e418137a1a9cfde4ecf21bc5c1af67f44c65a8e6a189a4fd698d28d7007a); (false,0x9b0a76a36357f2789ab6646f858df3561498d43f002084e8c6dd025ed230e4,0x2b866e240b1c05779a73e9164d8af2d4774ae3c652c0b9fe41564d57ce1a0940); (false,0x2725d9a7de3c43ffea1f7a6763a741fe2c8268c9a24455f1df0da26b3b34f8d8,0x909f1512a3c3fd1b2472a69cfceb27965993f92ab322cfc637cb4b26209728); (false,0x1b0355c1fc3ab85b85b0d4e2684c1041dddac3c2f65d4c0146ee45d7898aa,0x1afc8b42cbc0c5b3a2b296035acda64d8c3541cce741cb6c4635d8d445c79d96); (true,0x1e1953e06c5e18af636e8986a7334a4f486780da88f7f4befb76e52175873ecd,0x1e312b9df9e0356546a4756bc0bdb5a62ed10759cc9a7a970c0bd59d2e368fb); (false,0x12d64ba7bf706834576123b9fc86bec9d1b2dc6c54f1d863a7fb26d4985a53,0x1970a568e1d48df72b1d0bc3d8b6fefb574bb348508c26aa688462477f968bc6); (false,0xd5fc1f8ffe81b27d370e4359b538b517689fdd6f53b1cd9326ab257ecfe054d,0x16a7dc8c77e034085b21a59f475aa7d091694045e89f7d5ab1643836f5a97d7); (true,0x1536ab2bdd211604e32b3e1880bc842d59ec5751fad4bd3a70135a65ebcd3f,0x3c83ed0091ddfa856d2ac1735ae8c7d0f2b16f65f68ecf0bdfaf598a88adfe3); (true,0x975a2da0c3fc6cf3e84aed6718f8958c74d9156e3513ddc378aa74676d36dc,0x1067bd621aee916669d502f3a23534388ab64c1e9869efb71a87bf4981a54fb6); (false,0x58fbf3bca0ecd2b860a4b8a62320503f4f45f4a3148ad499c4361fc9e6149f0,0x2088adb6ebc58e9b8c44713e87e74db6a124cc5bf9a673ba9e8652c3a70c8b74); (false,0x15df6257d64ee458b3418b1b95a344376b79309653ee2850c0d0f4c249cc1f0d,0x6bd49c0048510f8e2f31622598a4d0ae86a2ee165250d84cf8989f13d0b0d83); (false,0xf046c91047e2bb209712cce1f97a0310ee87e89725ed506b406d2ba197bc0d,0x15b12e6c8925c79412257349688ce5b00aa32111db76d4221fc4d1a1c660d4fc); (true,0x1372898e771cfd7d6bb8d6a9b424cd742f1ae47cd1d8f5e37e05ad03b9fe3683,0x8e05aa2bbb00ae75ac78b5fd26fe947bb1fb0360a230ac084a6e9c4f266799d); (false,0x1a0cfd54f8571e999086ff33fa8966c8f65b83ab1eaf9c26f957c09dde62047,0x136271022a1ef81a0a37cdf4ff5b46d929523d2844686f92f05f334888fbaa02); (true,0xf87a80b5f593b61f42d9f189c4f07cf62a1abf9881d6f5d0c4da169ff997b04,0x2cd8d7d2bc4a49e0fec4d1c8efc583038aa78ce720b6bf63d5db9648220bd504); (true,0x531fb4a64735090abe01c9680707e9ab1647d3c8c5023dbac7b7cd7e33745286,0x229a8b85c5b29ba66af34ab76011aebb873e2d86a2512e3dbaced2f44bbafd9a); (true,0x317d03d32b6bc030a38a90dc7a5f8f2c1324d911eac774e964a9a09f0e5833c8,0x2d1ab274b4eec1f8e9cf6736389b273b447bd49761878f854a6de878e7ab4d80); (true,0x541486ba3831ed69cd9504c1e5d874e43f33eeacb1c1241940d25c8297673a47,0x2801306d6af8d4b326c3fee494395f92752577640d9ecc74c437f411198545b9); (true,0x422469867ef1439afd0734f3dd0647bc51a8b10409fb2372b448405a65fe7c7b,0xb03973f09f70a521245c6dd9516daa9bac13c57090a6ebc36056874987002e7); (true,0x5037bba8f2f563957f2c9b973bb481edc4839189467c6cebaf3290c7a84f723,0x17e459fe0def7b4157321f427559fb5657a015d09cbdd499bfe1d2c369cbe1bf); (false,0xbcbc37727c688ad15683538c30793c578f46820cfaab8d95bf780f31ddcb95e,0xd2f3d292f79f1b0ed9507f1390c1de3f1835731e88cf59c79b450d33c1e9323); (false,0x3979896e270da4cebb03646d4ad612b58752ba403d51fa45ff4a6cba6852b79,0x112d73697afa98e9b27bda8720333cb6dd2f813b2a3588570635814922400b50); (false,0x618f42b0969b47ffc69fec5c3291e2319da88dd9b0cfac5a7479798e654f088,0x2d1c1ef6a731107ccdf6d4c52a4ac79f256499a047ec611fbeaa776822b0878); (false,0x2a0ceae503c667f9abb593b98513a748a3bd1a8c4197ec62654f09423482b5,0x2b594a5aa0bb567cf44d5665980c15c6b822ae8feae0f6539c7e49f3c663358b); (false,0x26d4d07d70d2b2b5c986718bb7494c3a3ffbd91b844c2c4b6101c05b8741566e,0x14182c3028bed908f35b18f195e070c9f2e2c2e7df1a1257c8b9a09ad173830b); (false,0x858168278b5c5673e59ecb0766423424a922434b3b929e5c6b2f6279337c3c3,0x8f96a705bbea322d46e8c12306635a7d25e060c33275fa4c491f3ab91be7eb6); (false,0x1aa0e7ada7ded957a474c5a7e11f1efd05e5a62894d25d79d681d6beabea890,0xe02907b81253496f687c692ef824f6c316d2c9cd721c3610358ae4b962100d4); (true,0x81cb51adde12621508c06ff6aa59085a5d010e2d5b37e8b68931606329c7a51,0x27e8352ba2f4819db59df2fa3e15c5486b5e8e1fb582b8ebaf6230ae2ab4e4cf); (true,0x41d1e7f1bb3326bf61beb4882c6fb58d8f5ad8e1609c16a90a5c5ab702cffb93,0xf55f47360f77719c7fc831580e6d59a4bceb4143da43d595b3d8d9b2462c32f); (true,0x9b8557de50c20ef2b1c99dc7e128b38a7e515064109e039d7e752fc554ac878,0x1808e3e0604e522299033b680163dac04bd9b6476c7f65830f36b7fda44e7cca); (true,0x17dfe6e5c58207d97cf2d758dada91ba5a81579682c58a2ce0cd6ea75ba97390,0x163e255e69f262e78ca3a284c0d289430171c461725b40e3923dbfbfd42f2b38); (false,0xa3940118d7fc1dfab661fe3f6d915552b2a85bc0b36262bea589ed8a261c7dc,0x110920b1d478a3060be9b9052b6e2c6d67f68723289cd7b418129c4ac37a1464); (false,0x5ff45f0c3237642b2e24e40190b52f748b5cb721e6d6927ff7f36f45cecdb80,0xfd8df831fef2f550809cf7044963a2762dd88f2b40124a372900fdb6c02eb90); (false,0x5308751c45b28d0bed97edba55af8752d3e865982c1d482349c6aff9f27d39c,0x1a39077efa7780d69b6cbe3c9d5335c746179d4251a2128568dbcf3427d9dd64); (false,0xe35af79e0da686539a70535a4259f99b367f01e2d19bbffa24817d82d013593,0x1a653b61d2a1dc81a5e23964b017ec449b18738a4dce41b5b83217028dfc997d); (true,0x1ccb7f4f7e6a23d3daed0f1d41b8d9b1475eaf191b65286abdf3528c521ae9c3,0x236ad39f866b624650cd93ba199a6fe3f4ba12b9198337f96ebac4e05622644f); (true,0x33d7c3d33e91fdb490404dbf82046cf76588efe8da1715e23895e3cf061e317b,0x180cf44c74d2ea80d57618ab95242d4aeff37517ef207e56ee00f1b46a756f47); (false,0xbf3fd48093696ca231f7855f0a6cd8a017a00f0f47aecfb125e3044851bb4c8,0x2c92fd2612d97deaacd83488acffc992ae6b6d49ccfd8a4983113f45ae28f0e9); (false,0x290ec5ae3c003b004102d15632dfc0eb9c30857e82c9bf34e0c3ea2863380039,0x1e5448b7d3f02038f8464adccc1262e9cffb1797f12e8c1f87d2218a144db3d8); (true,0x26046bc6c03e352a3b24181f66e77c411a3b4a30f0f740f742178cdb3e498376,0x9bf260c7406fc18248a483a8c80b38422fd5eee294ecefd4006be42fe46090a); (false,0x1f68d47e946eeed8d5aa4d64fbba74ddf992a05186c413d6694da60b1db771a,0x107c6dfa52321f804ba23f737293dd3f7ae679bb9af4130ac760ae49b7ee3d4a); (true,0xb3b9e84d246aa4f676227af1dd3b576255b35806f33fe8b2d375d8e12fa9a70,0xe9a3df35cf85f298946cfec53fce135780bb636912478e66a85de6c8d8e1858); (false,0x468092a6cbb5a6ce9d77c1cb33efc6f3e758ebe7a409e342a675dad1f7ee844,0x2cef2350f4a7971dc4e9af13eec1ebfee09e0636381e400c69f835771471b5fc); (false,0x29b9376a979cd64ba28a6bba5fd36c7d48e7a96de4ee153e6287bc2ccec485b9,0x14ce348ff8adb58ef95dbaa64cd4e931a877935fd8085c4d4327af744b11ca57); (false,0x8f1f052cba0020bbed7185218d08184396d2aa91be98d4a0a16620ee57cc992,0xc24fdaf226ef967b7e9f3b09c9ab013c5b4030f22f4229b0d29e6c5b3fe9fff); (true,0x61879beaa3514f6e800333e73358f326306ba66cdf9860670d517f104ee79d4,0x2ec420c86759e51800cbc8177b1b81a171e80d0b356677445ee884093317062e); (true,0x5a63dca6e018a325744fb8604f9ee0f2b32012db57f6e1a87beca25963ae3fbb,0x479d952f226bff630948048829906ade03c66ae9116781d79588e0f2d2620cd); (false,0x69fc0f0151802382b7017dab52b69d525f813ae6dac8ae5159390bb869212e,0x15a3924e135123e1abcb29516e9747e4edaa347e5cc0a022f2f8d5aafaa6c2fb); (false,0x9ad150629a2f6fb9e4b9b1ab827fa7662549a5b0934bc66f58fdf0a6ef52ec1,0x1656c7f2350c3857c9bbde336337ea3b04ff59f9b38424f8f8eb7c1d4f103358); (false,0xa4ff21ac5f8addf88c6c9bc671b1ea5bd026f9fb49b650bbb7055465db59704,0x2bc5c26062c17611ca75339c29b1a90af213d3b1e31dfd3364c8c480a796973c); (false,0x2798181dc859802c13a421f3ff7d89840c657ea919e09246a03108d158f5434b,0x2dbdad7b9de3a5f7de73741d9257ff085c673012b2d05a1651e28aed32b292c5); (false,0x2b3c395a401b1c2664190d5470ba6795eb42b7e395c8e51e7ea12c1b49881e11,0x26ade057f31008fa26bbe760e640dddf44327c386944b0d2cb4d119928912d88); (false,0x1eea7e02ed32f27240ff3c4582a2a75e8302ca6715f59bc7b1c075ff93d217cb,0x1a541fbc272868aa03aa5823dafdaac52b7072477940753296a8d04038570075); (false,0xe531becce9f6d132c2bc06c18fc4bb65cff7d4f2e8971c938437df3f211d0e3,0x25591252d0444526eea5076333f0a0d238c5ec9830c2e49355592522bd746496); (false,0x1cd3100b971d51d51b2bad92a3253a8f24c1b8bb578377e2f1e71cbe4460455d,0x201d67d7be347f1a9d2afdadd23f9c65f8a6508655d0c9800b16f21c57154287); (false,0x155012d1ad602dba65c1abce2200d7dc5352d00235d9f095587a0fec1a7cd01a,0x2e63b00668e92011ff3d75b13e057e2688acc96140553dd35643ca9142f31317); (false,0x2c7847d1671c77f69be55a13623ef8ce734861c31fccd742dc7c150a252a7e5c,0x181f532d73cd6049b7524e9ca0079e693f00daf3e1ffc9257083a25eb5ebedb5); (false,0xc0646e41e371de1f0cff5d12da13a29c4fffe55384e8e0b6699acad60ca37dd,0x1a91c9d95c70799e067e3335df1c847d6bd0188c14c289695d784688a83c6a1c); (false,0xe96840d0538f65bfed523da14e6da13cbe1323020d95c442fef1550f678d2d5,0x2fc7c0296600eab4770ffbaa017e0c97b4ab81b48b9c9204beab22ff02a2603b); (false,0x2f2d2c5c053c94e5fa71520bbb59cfda57d3bbc76a7bd466793cfcbe8ef2e6fb,0x5386685165740725f4b0718faedcd1915345263ac2638a6247fc39dfbe5669e); (false,0x902a5d40ab76e38ddbc52d16f8f64489406067db4bfa222dd8e1b300c76ea8,0x192bf6ac40fecb33a682fb21b6542b4df2c4391da4070f622ad0aae1306dadc); (false,0xd17eca473e97334174346acd905a2c66008b9eca696c4c6667d3d5b890fe1,0x11491b155e00bbc817791fd0ca36c2b221bb24f62e06a7fcc54e486859e25d2f); (false,0x62ca615910887cd4b469523727c81233a096e39750d700f23f7f4dbd8bd355f,0x290994d9b02b92005cb9a2ef0d80f1f47eeabc14fe3a18a10d276bb16e29f942); (false,0x22ccfc44e34951cec43b5706b79350df19f9b5d3cc33a4cf41b734a686eed40f,0x24b2bcf7043e1deba071af135a13982dc85ab85b1506bf5a876fb748eae6a0f5); (false,0x1bd48cb86b65d53411a48b843aa49109cfa8d57818c93206e690b40242a09e23,0x24f9cb7bae4dc38b3db5e8cef6d25c11fe3fa6df53d82c66897ca8796ece8c56); (false,0x1c40bacf5eb87a58773d9bda928665d54f06af9f9d3b7a1bb508abee440d7c06,0x34be7d303efd48bccc8ce933705cd8f73fca4974722d6ea632c6ae62b48b0de); (false,0x397ce114c83f42683e5ea293b960b87d48fe6489d97f903ba8e06f8d636b15,0x1515f2ddca11217add2ae0332917d981a691785cbedd6dc6be7a7c144dae956f); (false,0x9300b6f7cfb6d996a0e1ec92ded73e3199f1f1f1c6e855b4184b765dbb732ed,0x25d280a20dab448bc253dcbb73e8f6924f10208aacd6382586acd81134673334); (false,0x1d8fb0762d8552112130adc12bdfaf53e816da17ee0e0f559859bb1b77f36753,0x2214aff813f108dc29b1c842b24a62d5fb1bbad357732a98b04ef3ad16225b3d); (false,0x18008490ce7c6af2d4b7413e5097649ad16bcd22020ffd2b5d591b7a4ec35ca1,0x1c39d1990de9e46828c995b01c1ec6753653c5708eb78631d93582f899f50fe8); (false,0x1076a811923479508039deb7b65a08e21a403a74975e4563df1afa7c8dc0d87a,0x11ada480abd13323c752f7ea955a9c6a71fc865ee2aef35fa77a739dd54c29c6); (false,0x67549c760dc7dd0015d76b50d44a9185165e18ad23047efba09625805d18d83,0x2a044cb2f65e0fc7ba7c3161525ea0b0c32ffef399a9885516ff7ccc7a8f77a1); (false,0x247b4a21ae42d92efd1adba0b932ff9af75ee22b2874b11d8c0b6c75e87b6010,0xd6cd9ca0416948700134ecbdb07d7157e47bf4e30287fb6441f1f4f6949b331); (false,0x3b979a6eab76bee45eddfc624a832aa1af64711f7df725b4eff0080eeaf4574,0xc02476fa9ded872c5b22a86d13ebf360f360cbfeec673a10c39c93a32b049ed); (false,0x2fae98e186e88c351095a46ff7b3490bfa0a2be4630c1fa5fd8065dbcb97576,0x2200524a255dbf6af47485a398ccebd619e3d57040f03e65be26ba6bf27f8ff3)],
[(false,0x17e3dd7b61223b55cc183e31e6f75607636bd5a8a595fd758374bf20a5c5ac69,0x2acdbea3c5d2e746fb67e131fa516a7ed25bb8e97da235d0e8ff4ecb7a45b440); (true,0x507511396c9fc09f59a56398acb97913d117379761b920f98063d1f2533f8a0706d88a5e2ac9f3c3c94dbfe9614a2bb5ddb82040aafc2d6f060cc17fbddf16b,0x96b71f34b730b36061c8ed4331f084641cb1122b36c6944200d8488b2bf3e95); (true,0x3e582e09de3719572aa4679d7d122d82101bb6bea8dc06eea521886f567c6dde9ec197b96a4a5840793b6ccb2f8e4a04667c1d61a20d9d290c4de49c692f63,0x1e66549d28d32566ee04bfa4e2d99c59e4b55603287dda6ebdf59bcc4fa53d38); (true,0x289534da4e92e1c9462d68f8399dbfb36f5a65e526145d5a67b3c4488404c4df001cf0a2ede56d6a9c3908f1a58d80ba78c1e9d035d50fc0434d52f117542d4,0x11eebb9f9245ad5eb31da4a028bbcdebf54a84acf8258cc08000592d396e2dec); (true,0xe1f28065e3bcb407c9013d86a1fa9fdd1d49e3eea50e8a583729ee941396fb86b42f3ba073bd080b5a34b608bed6f1f7b195c2eff13568f179bef5289ecb74,0x2f78e42498f0215ad8e17bb71a409034059343aecede3b34f0ec2d69b80b903c); (false,0x2e91f3143f37327f80761439a3f3b32bd344e8e276cb152b48202b4dc55f6536,0x723488d1d5509ebd9d924cbae1995d192e4c8fbf3a1ad4313dea2e1910c28da); (true,0x23cc34b187c6f2cc8547f1f2eab9399e0602193cd1a2fa1d8daafd511655f86fdda3cf163c2bacc75def55b94a5cc838f353bf1ad6f5fab4c81588bfb222ac,0x3919d8dc0ae2f9c759b8b465b0430f91aa60910d9a767345cf8939c38a71000); (true,0x8f2eb76505dd31faf1072bd6e20114eff84e3050764eaa408ac2774ef4c09f5dc341c8f6075acefbc3727e42dda89c6e3e09e08248ada5073cf683745cafc,0x21826ec1d81d44b29f5610aab954c629bc4a513ba65100841806c0db1bba3504); (true,0x314f799a2ef8d9c89ed179e13af5dc1c9483ed76b4f0af53cfd8d72705a857888a7ce0e6777f6c9ef929dce10c80f33923d33aed9fc8a649a4400ed2bda99ef,0x153c09003eb9f67679a1d66f8dd031956aaf8d80ec10f87f1341a1b93c53dd41); (true,0x13cd0fb48ab982ea252091e870a6647174f6d61e8dbc6e3257b425a88c810bb3c2012ea49bfaf488358335b4c2cf294545a5ce8ce461f771fb48c521c92e1e9,0x222549e549ac1af71e0bd5a1b03ead31917e1bf9bcb81ce8c02b7ca70d7de58a); (true,0x3333525702b830233a8e2dc42f4ad7f63ee4abf925ea88e3efe3a06a7073a0b0f2e1615b32d61651c259874b9c4810f72a81f0cf7d5c4aed4da97500dec0d8f,0x1eb0d16cc5549273bba48fe6e245531a5b7ca792c7266408d1aec36c0e41d75d); (false,0x1376e44a9750e8213fc0ebd4fd26e3ead15981ca61798402909231de6a1784fb,0x9734583a2192652a254c224c8dc72bed931d0f8a68132a3df73d74a844fd2ce); (false,0x1d87399dbbf1aeda3e0c473c96bd1b3183be7df5b16b94854488e78521943ec,0xb954fffda73683c07f990e81bfb880727efdd665731e913358332b6a6a159d8); (true,0x5e45b3cc309a980b75e88c3b0168bd4b8aba5876bbab8bf9434f48de46693619b07d774b6051989b49d2bcc703789743b548a8db610b2520c773526c0a83e6,0x1cbc9671676b8de134057e0ef39860495985221589c94910e79e4465cf62cada); (true,0x2443968d31f92f87f6aaf953f47bae6d5dda1736d04657191782836959a5a87881386ac17fd71f7d0ab6dd27deec07a2521809c817978d6a492cc97fe87c7ac,0x2e92233ba84cc0dd768aebb14c12c367583e0f0f034a31d7eb88d2de3f62a300); (true,0x5f3e1c49f885dea9261c10b9541fa715062ecb03fd6cbc41e6f5ecea145949926322de68a7d75fedbf046af9ca34e8d6286532d5c4a07095a4da85ab96de22c,0x174678f505ed93e359dca7d24bd48975a2ad784b523d9a052204272e755d1dd4); (false,0xb31e12bd793c6539d200594ef658401ea102580dbea6af2d045636ce8e1c4e4,0x1936b0dc1eb0940a3073257f25fcb60efa2974c21d8efca192ec4063ce9ff2ac); (true,0x1bead67b977d6d49eee2908b0e6bb29aaca97da4d0dc1a8280c4168d46989748adf29d03b0d8612e581ccd6980c257a8c307bc0df180d3018351d8095bc860a,0x6c0386a63a1031c52fe56a67b5698030b5ea23a2741be59b61a12a436af2ba6); (true,0x20057f2fc23b5f7ab041e564f1a4bb549ca78ccd345bee43d4f62f46adea39f6b6eb1cb4689a60c248116166bb2db529245d42ca5316cd29fcfa6881a83568,0x1695c852c1dbd0764e59c4579fb07eda9d0964d41a6a1ba48116d307025c9f44); (true,0x166661816fb84d55a40f6985ebca2718a268574edb7ba42d3d36126a707b80ca7e822cfffe6efb653d04209f1959186ce21b26511a0b2fc60e4969f4b53dd84,0x1f406814fb0c92855027f60c30d71da27ab63aed880d8f632ad0414eb4cd1fac); (true,0x2ae39dadf2e154871e5a7649100ecad76319da37716b448060addede572ef3a5ab2197f4ec551b1f8705bd4895ba54f11999390ec31ac4b396a755bb7f59f3b,0x172fd473218a3a1d15e8a177ae50576442f652257fe5764dd1b5cf3385f2fa75); (false,0xb1c23cf229327c8687e6d7c5b990a93a6f224d971d1ccdb8c2ec086098004a0,0x207eb9754cf90b268bc0e1fd134e480331d6328f5ddd1b26aabad2be02bcb4d9); (true,0x2e5eb477ba67a513289cfeef0b1dd71f15dfb794c8758113cd427291418cf44053c4539b78d35fddd750a3d3af4c288eeeb8e721843d43e331034a65d532201,0xf5c7c51a2b51ce8a4b11aa0105c07eda8453f8ad4f8c2c3f7cdf8b18b030ec2); (false,0x4e04f48d1c9b780b67a1bbe9c92a32d71dff49ec5f2e1b14eb266d9ec06c9cd,0x6e919b9a5f4e37103f33c885bfad10396e2269e6be88f5bc9d5c492e95f0137); (true,0x218de5f5943be8d206bad05439678fe0b22bf6083645d4acc02ca30ed5692680cde3e897c82d02a044a7d9080f15169e9eafd116a4f48c64f22f7e0c9ad60d,0xe1fa8aa5222810308e09b11edc5b844a201700977d0a50d22f1c9dd79dc8a56); (false,0x41f44b90330d10606de19c8a51d33ddee578dc829578b64690ec2791ad7e528,0x688c2bfdf14ad8d79bd22e03317df1ee76de92668ae1f5c654715f8bfb8efbc); (false,0xe1de579b769b3b6461317cc4214660f57384a4d8eccd047aef202eb5fed40e,0x119db120f98b4969114fa045ac6a9c38efbd5b3a457dd171fd619e8e30c1be02); (false,0x669a7986f2dc943e1ddc195e3d9932b403dfb908be80ea88377cfbf6397040b,0x1af6d116cde7e704e7a5c2b7dde63cdea32ad39da541baa922303f3e1873f3f9); (true,0x1feda4e2226842ce33d02b8b14169f6c232a71787608bc66a33bdea72153578fd87ede4370face39fb94c88a2091aef450d9f11cf71da50272947d803dc05d1,0x15f436cbcb54cc12ce0b90561993aca8632577b79a7929267dc6f8a8682dffb2); (true,0x152a5effbc821d3bfae2f3c9f32b9b6f1fb8a180ca9444b146c74431f636bc44894552828b4532bf2231783c5ba44dcae93fbaac36ac773ba7746445a55f6c3,0x55c58e25937ee4bf3b03617ac95ee5372b4312fabeead105b7c3bc3c1ab1449); (false,0x98067e87832f94ae0e11de2bca91ca48e5b7003022caddbb19a6eaece4a205,0x1346b38cc0f26abe6d2a1b7f16e17b03c986ca4ae852bd1780492371903cdacc); (false,0x7adaa986a5859ed06a9caba9cfdc67a948ced3d796e240ceb5813ab5c2cd872,0xafa615d887f18b3ecd3fde847129641b38526ce34ecac3d964ff2a88e733a1e); (true,0x54adb3522ca672a5da4f0d9dc735ab022d95e08473aa443630dc4d1790ee2a45c49dcb3c385a0225137c8059b3c91a4ca93388d2fc1c29882e790c41c0f48e,0xe9721b32c75056de03e1ff237f4b66c4d45d36ebcf26b0a694948b964c65be); (true,0x9592d5d9ffaf9343cc2ba4e7c714daa6f76e17858f4c502f15e2459e8bf5fa8d747c0264cb71f74b20e67343d245f4396e766fc5d94ea4685a9247b217f7,0x2d6b25b948ad8c05c33dc8dd5272edf88dd4ca068b80f6dab707641c52302d5); (true,0x5a9676137aa1ac4ecc59b20b11ff8f6079e4b7f55a9348e86add0acaeab6ae08ebcac023bcf900ff74903eebf7425138b4abfa074d6708745816e78d4af83,0x1e5531274ae7f4b1d169621a3c697f75831397af1fd796d59d94f1e9d7d41c98); (false,0x130359427e6630548c74f407a4402e68c61958243b80b293d75f2715f701b700,0xad8a194e3b34b00dc5f3581f0c3f3e1c8c12bc86b0dfa9ab3985cd0b7efe340); (false,0x26e55d7c6fe7bbc455dc96f67ba8117352dbb44950fcb5e0137028ef2ac3b03,0x12aa81f902c8df45ef1cf26c9843b67d9b5c10ec43e6c5894e414d88e54fd); (false,0x733336543fb7e45461f3829127202663d42bb49403f55fa03f719e72b,0x1d4474536330649921f7164c1f26588f8eb779c1b911afe2367346a80dc91ade); (true,0x259daaa45497cd8fc31c166ddf410302d0cca2578456c052cff8c36440d03617d31a8bcc5836b313842720caf1f3b1b6a9cdd84c6a81ca3e04c4170f689f116,0xfaa00e7d32ac9ba44168d126b2dfe254ec2258c975d3caf446320d2ac285036); (true,0xac65ec2412f5912feeb7c4a4e7dac6abb7041b87bd14f75bfe6c6b96bdfb063a2698ee45625b9f9db82892f7d8c6c2004531734d2b1f54b4f8aaf205d795c7,0x24aaa683e7f59cc1c1bc7883b29bffc41a85f992d9bd0f285261158569155625); (true,0x3b0a2bb5e836b55c8fb4298a672aec8e60d92c8f8457e2a920a89ab97bb9e13ed3b4afff0a68956f4e084830edc26aee0119e61b5d83cd3b029d67410e77d60,0x281e1597c64861d929315f61af4dccfa2cdaae6f308759177621fc067540211b); (false,0x21420c38ee8a04e4e3cf57804bd84726e2964a3b26b7f359dcc5505008f49a19,0x14301cefa952f444889bfbdadbf32f48c3ac806bcc51084246c65974c6d35ec0); (true,0x11e5b441ae6b2303b77e8a1ab555146899bbc474631c34aa6ff84a8f5b6f603e3daa213a8f06efa4dcae7d9fc38e8929535919f7140168d9f1ae52dba8674a1,0x240d046154ddb7eebb6e62ddf70b14fb48c36c601517a2d0c4daa63e68153b5f); (false,0x1adb6a6c7e56fed35b501529258f32917bde9db1c9e58287210c35cc0b63e212,0x2d056fad7f257663aae9ba2f03b7304c6600298187274876be2353f10ff70b2f); (true,0x59028216b015b87ffbb8cc1b6451af4c5c8c34269fcf9c06b8d9fded013e891c206e1d3b2c511f9fb81e6b2c07a06f3e68236cb5d4e8092ed161c9ead386504,0x1af7a0aeca3e85657e7c8dd0977f779e952146b6f38ba95d147bdb084fbd38cf); (true,0x1fef90896713b5827e6ea349e03e976611583e1f9384b687ad9e951fc718c10166362d3d57f6bfce0f655d0914f1c16540da028f627dbe44cc6dc5603ce0a51,0x12f85116896839ae56c6232304a95d8f7364f6fecd938c4b3e2c7a9f327b5c2); (false,0x76fb7325a1ccef57edcebbc061c4d4919fb685ed42f155e486b30c5f60725,0x13cfe4037a294a4f68f53062a638023655c6a7d617c3c91bb4fd6a38b831dfdf); (true,0x113caf08c6a959ca80efe774e2f0f526afc92f2e1f4ed1858278a06381b9bd4e1cbc1434678f480317ae6bead9ccd225692ee4a55ada2e956158495f502ba0d,0x27453dd309c17eb67daf2f4254fec7073de9d5e582f256ac7fa2390132c95ea6); (false,0x1fde4fc7ebe6f99634462a80356b249e460660179d1c0d8d2de324a6f1930b78,0x2adb6e7f18c177294f7025cd641ca815c30baa39b003b445fba5835b2a17482c); (true,0x50a88db7edc40683b08ad88221b22371517aa14e76301ee30e99475700ca3ea8ada053cd6b73eca4ccd08cd06bd780de00accbddfb3be998d5d5f823166ddaf,0x1)])); (13818364434197438864469338081,1,(2,[(false,0,0x4); (false,0,0x10); (false,0,0x100); (true,0,0x20000); (false,0,0x400000000); (true,0,0x200000000000000000); (false,0,0x40000000000000000000000000000000000); (true,0xa948e8,0x2531eecb3a70715c5e29ffcaec6e2e009fc8c0aa38635117cf7e666e7f56b718); (false,0x1c96c5ea66d33a16c90e252f8214a971abade4d22f61852643fb6bf98c161725,0x93be54c24c0b472025c039635966d7cff7d95af6781a7c500b8cabe1afd3b1b); (true,0x386243b261a9966b6e9d47c9524f9bc6275c12a5a1df75ceec4e2064b6a1bb0,0x17a04483fde88aa2175bd894efe88fb51095a8c7efcf036f400fd31b6e9cce02); (true,0x1711d166de5830e684d282dd9c2933d4a3857788d825d8d24d526fe6a889eb2f,0x2bf66dcc470eb32263c06494e95d6b71aa6f1fc9406b72eaf77affa327e484d9); (true,0x4fe0aa7967af201805919c223e467748c91a3c1258ee5133ab4f1fa8bc5da612,0x1cd4d5271e5773253283b57a49b378e41b47d5f2f1e7f6a18ffb4bea6e9359d0); (false,0x112d6daa1e63c3a311b4ecf7d83021a726fe92371cbccdc475dbb3905d050b76,0x1a20ff73fead5b85ccd9f13318dcd01e40319d0e78221529ff152e075d3d8a); (true,0x1c3760098eee5b5d44f8515b1d24aa99c7bf79727a48db995fe2164bfe0a,0x28527ccc14f5f76ae994dc70809049e6d86da9d71f8b4ce6406cea0d2bd21ebe); (false,0x219927c3a9ba106b6a08d1757b48aab53415b5050391dbe39ce51285db4a32a1,0x2465589932078c712596894a28757da06853db0669a98b36e04ff0a67c1ee263); (false,0x1b5fa6dd5e02470deedab9727daf9019440927567e1f170ff38b15cf986452d2,0x221931c3b9d3ed9eda28fbffb71ae45eaac5ed238d6d96a53df57b6347029f77); (true,0x300dbc4bb10e95901cf8c951f8f95140b350d8f7e3e63fd15184c0beebf9ae22,0x29e33c34bff6bb70b59e8293217b32daf2721ad541191c0a34d1ed84fa686480); (true,0x4883ebd8726453146d768b14a5530895542497bf4b57f47a042b2140c7b49b90,0x1fb7c28625e81ae413a8fe607983ceb5b4ce3f3e5346da0478ceceefd733e470); (false,0x14c9fe9f24421f71e4c3cf32a5124d13758191622d9d3b9d00ff6281917ab0be,0x24026453df92a20628177a3bcaf7854b72e7ea8bc06852eb30b7420b3efd0042); (true,0x35972ffeb79eb54a0ef3820f955e34e3e5e2a9b5c2162b182cff2c27a89640b7,0x9c3286b3b529f8092046d74f3d78c35218db36721590da75c5dd2c2bc51e151); (true,0x3f0561e1c75def2bcebfcfc1150fbe2e661b9b12475aa3d34531d12c093b37f,0x1f54b611b1b5ced65def019170dc082b702e9531aade8221ba344d7fd68f43c3); (true,0x2891e46e2fe830f4f2d49446295aa073f3ba6d2f4797d117458b22bb85656410,0x19d535ef7ec63cf559e8f1622ed48be2187e1470c1dae9577942c8270e2de902); (false,0xdca4f39944d3c8e71a9b263ef67ce241a5a67e3cd1b32307e980a96ebfd924d,0x1371c471063aabb12324ec906ba054e278f85d21cde030032fbfb55ddacb11b7); (true,0xfa040435f5e3e0ec26dddb6bd83f4fd5e57eee4ccec4dca9c9583c382b6cf90,0x255ee440d306eda0bc0cf2f7f8fe06c3107261191eec54f8ed015a630830d212); (true,0x39b81918179c2f1afe201971ffeb04356e0463c599767f3716a787b46f1f09fb,0x1b148194a42d6ef6bb6d6c50d7b6cb8fd469b16d433b61d0aecdd886724088d); (false,0xf276f9d0673cac84d003c99b76811d0baa00ca83477a53413c3eaca0f4d30,0x24e387037e36d9fd646ddfaf4c7a12070a2bc5c8ca84ae745a382cec13e1d079); (true,0x383d7b6686eaf834a3329a26a14413a619885a425078193bde8b4953a44b4519,0x1ccac1128a0fc55081ffc5145ba38cc59815b6679839c581361611fe14a26d49); (true,0x2242dac79ddc137c597951069b4775f20271daf3f3c9985aa736266bce57db5a,0xb5b0f40a5a22b6b4153467b0fc52a330cd08effb72504a893f2133d9fbea248); (false,0x2aa2cd9cbec097b2a857708eb71dab0cdb73d0b95f128b4a98975937c4f2488,0x687b010a0d96c2dc9af0711f8bed9ac3fdc82041be98c178fba97efbd700fb8); (false,0xe1942fa6445b19f960ed5082e967b4af32e5dccdc2702ca90fadca72341853,0xa6361eeda4db504f7f116837bc963e6707519393aeb76a3e01226922fc2fbed); (true,0x475c5d503847101e1d9245b3cdd0ed52cc6478295bf525c2d43e7893e8aaacb,0xdcfb693d59b209c761e2d46bca63bb30e8eb1eaa681d3dc7278857713b28807); (true,0x7e23c9ced6d9019a720ca1c751f7051fa94d82332f11c1574ef106feafcfa8a,0x214e0f5dbf9fb54261498900401c475483e7e4637dbab3166d3b47d9ad09e5d8); (false,0x16ebedc29ebb1c03a1b73e8c00ded0e3c60046c114c6c989557bbb73aedd32b7,0x2342afdcb8546536ec74fc520991cc5617e4ccb8bf53b718d2fc7c23a8aef389); (false,0x19b141d6a8673792de9470e45c748eb4844e93548045a1e1e896bbbc8430b7b8,0x751ba107ed5fabf4cd18683fc2a216c1238a7e3df31904977986808c1b8a799); (true,0x236cd0da5a5e82d476781db5501bb3c6068fe46d06b7239814f45a9a12427b5,0xfd77c13ce329701d97ef217a580568c1bf7b55dc1a9344004c44619c62dcb2d); (false,0x52f9e91047b014942d566dd32be6a0e098f55033813185bb3dfd8a781da70b1,0x1fbab7f76236685108cdc8b5505d08bfc20e5ae4d7f8a24723eb6c543937f538); (false,0x14cddfb6f493566ce27ca3df7acc255fb18c255a945da03ea76ba780b84caabb,0x182a297d2e3ba74b5856a54a73406d7c36aa9bd6bdf0ee47ce409c3d30a79185); (false,0xc111732482d43ae2e461393eedc5cf7105361c929fea4eee876b217895fec66,0xe1c9af8104f3a9cad7a1c400f30efb24e5ef67088493d820bbb959e4de02b3); (true,0x83af93ec950519e45a3c75707eb1b90f82794493ffe190c56dfa18f05d025,0x27170a4092a7e9b47c2ca858e211f477ab36d6f94eb4cec2e4a5697cdf0c22d); (true,0x3f26fefbccf2255b39495a6645e7a9a9ba0b76ec776fd152fecb034b107621,0xc2bcb9063193105a483dac9e97eec8f5c81c4262d79a7b2d574e948384001b1); (false,0x30fa81e99b74f8f2bdbef5ca36cc8f4a625b2fb9e8a052ce80e56cf3f7d16b7,0x240e2b88350fb4803d2a084c7e39a73ce7a7c54325f630dd0add6c1e7905c5aa); (false,0x1add2236f13d43987257ce567f4022a552c84d40fcfc39f132bc0f70ce0d0955,0x23b4dfb29d58375d3a5b7afb9415c81ff523036fba42d13ad2d43bd487360b8f); (true,0x34b16d2ab5878e83dbb597a4b12fbed4535ebae6237894cdc7726af548fe3729,0x30353e40cd344077afa17995a2724fdd963c69891ade1b329f848cacacb4fc99); (false,0x30065bd425500d7acb74bd33c2e8f726f32c0d7ce6cc6fdc6dc875c2cc48c95c,0x1e1ed57c393b58459dcb98066c4ed78f89eba4dc363cdf24f61d1a9cbc1cca15); (false,0x12bf712f69a6b9c440b949df62ba5ffad116ac7612cff07b59444b9b0e45e4f7,0x18100783bcfb9e7f67df73f76a059cd93ef7b6d9ad7738a91c1f2a8c0dd740c2); (true,0x17ee17ee248b773f6fc131cf6eb1dce3a7fc990949d2f64036381256a03b5f66,0xfd30a600e1013c5474a9052a91aefa00606719eb14525befd59fa2ad43fc6a2); (false,0x52cb616dd846933b514fa710344d31e032ed688c8f157ca62c0786e4acd2623,0x14b14d10655ce33b8dc533fd5db934d048fa347bc6322669758f14bf930dd861); (true,0x11b24ddea9518e78b341dba8f87952a8a32c286cee15453c3ede2671d4402eae,0x2af99f33fd094cbf88901601f16f9502f7859063eba005ed24e39db393b7ad4); (false,0x262a27e32a4fbfb34422197ae54214e9f0564524901be381d2c2e1fb0fd38a,0x3026faff13b13fae3c138a8029c72823aa95e510d6f02699676cf5cae596ec06); (false,0x2fe9f542e017c7bf35e44c391cc494b958a0782600fdf318e383fdc5b7f22765,0x9efe774405aa29f72b07b23462ea7729c643b2ef667ddc34a6b0600c4b0e8bf); (false,0x20a6233d6b89ccd6675ec1ffce75760b5679903a37d7874330abfaf4c05353b,0x69ded2e728c3130a1ba26ecf79e15b1e3e1918b4bf8f247698a92db6358946); (true,0x1cf3dbf19c4edf077c0722b63e82260cd71b2f19c3544e7a9714ada5ea22c,0x1e2ae5a2190b0e18c988e0eead60dc668dc85619a50e4c1a7f284d6336d15c1c); (false,0x12ce787e8cd4a493e2b5ef8112538d697b5ab92b872660c553519589c6bc67bf,0x278bdfbf4ad6c7083fb4026daa938d45f533b342269c21badcd87f41801fbb51); (true,0x40a2b46feb9af5bf9cab7d74b14fac91bc50c3fc22302e31bff6cc617c8336cc,0x131bc9e58779b41898a59ded60f1511793d507603ecb7c0274c6f5df10d7a876); (false,0x78ba0b3157109afe3e796959736284186062eb3da1f4a49d3128394aaad5083,0xb7016f77589c7223380ea327c45a49e802370e5c73764c289026b06aa61c5e1); (false,0x2b414b118b82229bc95b7bfbbf50e729c82e5a23d6c74d73cfbb20fe2472aff,0x7c7eacd134f535beff1b08538eecb5e78f1d690f38e49405fa836e66f2ee4c2); (true,0x2808fa9858d8580d49da3444cf02fe894b8964f55ee4be1c9012d068d5a776b,0xd33b36ee644b55d1169a3232f973794803f92ab807a9ce549038b29ee9ce9d); (true,0x7340eddd5373490dcf81cdb6608b57d005e30b31e853a46a3015717c18911,0x19e4193e5bdc01d2d73025f164a7f2ca2f15a02ce60d3f1191727a3511548f81); (true,0x1bb471ecc5cda91ae0a1fc91fac82ed5ae9299f26600cc0e9699090e1d9fe44f,0x15230dbc7c83c7177eea68c8139f20faae9f0abc3af710053e97c95a1092d9b3); (true,0x1276f53ae285064e426838144b68eb62d70dadaedf32de5a42bd026007206555,0x113b08d8afd22b6acc0d48a34a3ec668b1aa98c86d129319ddfcc4701b7980fd); (true,0xc453978e3d432adc4ae987b1411e08ac7f4ad6496f89866070b1f4d0da0c276,0x1a94e1a78440e1a150d0d06c7a170038cda4c069cb0a65f000cbd3236eaf319c); (false,0xe99e9ba800fbe6b1b8ad95b14bb038675ad02c4af5170a4d31f4c6db56bd658,0x4f2158a81b6d44c363570e290474816d60dbc4ee16fd51173570d46b77940b8); (true,0x102c995bce5f35ca6fc7d9e68f22474628342069c5a254792f719fb5e9b7415,0x200efdb0b280027d2b5216dd26fb85b19f78abf4e7524de81467b94c8dfd946b); (true,0x2a79ea75695442d6135af730cfd950fab13d90c44726fea08365dfa263db81a9,0x5554465c9aac1338d15facab042adb7323c21416bce0ee82c2d522d4b3847c9); (false,0x9675f6d49e4644160acded6f706676e670980e4e884f43f9d2f10b34e7fd48,0x80b63e5c349060850ae06216da01c0e9f585a2aed028db2943940428d291e89); (false,0x15658986ec2ea30e5d509a9923790d6fbd891c5e511257e151016ab8b1daf51,0x21702f738c2e58b5e9b20a1b9b0f60bbb502e09b31f6edc62bcf75573a68b600); (true,0x2e35fd8d1abe7deddecfea497ca2e1be90538a954c62221637adbfcc59b1c7bd,0x231e0519efa9c3eda6f7e3b15470541bcce1118ce1351e852097a50439163843); (true,0x32f7dcbfc048df8c2e5149b490d73e46e2fa730f84623c5decba37acb6b69a16,0x1bdb064fe3ba068fbc614faa3194d6bf3ea13567b64a83a7e4d1d63c50c28fc); (true,0x20119948ed6d5f271776ac8af9bec3b6c226849e85f7952091374cee81c8da,0x2fcfe259a22d2bb2e4bc7f1aa5f1d6e71a91ade3c0bff2c5f0652a581ddda746); (true,0x5e7a7af3f9e99a94372346bad93d17ce23909b234471537da6542b39a9b4da15,0x142e2e222785fcd3ae56a873c12401b461ac5de49a8e88569f89d523d69bf433); (false,0x86a6771d54bcdbd0319b866118ecdc0f32d27da05e2a04aba9da5d0bd44c8f2,0x1159ecdc6b1d1b660efe4274162391ac57a4b85b1f69e3cebdf1a00f456e7937); (false,0x638affac1dfbde1de2c27964406e7fae94a93146f9f1ce1c3971bcadfcf4f23,0xf681974a0381a82554668e07aaab269c48e403bfaa690d525e64b615ad9baae); (false,0x4e7b1a0f31aec5d58736b0d721d3ec78e71845489c1613079cf03f0c7c4d353,0xa6076faf07c189761ae0966de3599746b21974602f5845b8af8ea94c3587af1); (true,0x47344cb4fc43d7d8cc564acc6837ad6e31b849d791441e34c01b9f9a70e67b4,0x65f9ea3cbf73ec6a049add490590a291cc01f114478888625c53d816666c60e); (false,0xd6e5127fe4f21371c94d58b34461955670be3b2765029f8de732c247d793aa,0x2b9fab76a5a951cda89bfdaa45869adc6fa5c0f89fcd085babb18b61ec8a151a); (false,0x27534dd9e730ed97e51abb357ddf616da8294122163cf1d2bafcc44adbca9e3c,0x9626794e9f77aaf99528fb68ff095a12d7d497edc385248298219ff95faa868); (true,0x3a3c6054bcc853a5b687fde8e9d4fd612955e0dba0755a7817e766144e131db,0xed09eb1be49a99d8e5fe7d21f0b02464852a9d592cc4689f8e84c6d3ef022a5); (true,0x9122f31eb1d60a433f403db9943e5c5de4287fabf9c8a02b2dcbe929bd09689,0x17a6d428d37659b709017c3e9b55f6ad4256756c9a536e9e08007bb7c04fe629); (true,0x171ea359aeb318f4eb2a68991be8d82f67c694e69762f1286ddd3ca13d1d2f17,0x503c562e450766fa94281c21b32db78f0c46bba98b8474cae8a279aeb5a360b); (false,0x8508bf76cba3536d508d6435aaa9ff72d7c41397e2a64dcb02959b50f8ac9b,0x1fb840d10d9aa8189ec77bf11038978c9091a91d7b7cadf28d18f2d09c2bf7de); (false,0x14caa42e334f2714800578be9a1ccb05541acf0c24e510f13015a9911d653f4e,0x414bc308e5b001724beddcc397f9777a5602885305084273d0c89af872ce536); (false,0x581adfd13052d9f24e89062dbbcd3a34336e6dbfb1c24af9572bc4dd4dc1f1,0x3b3855648043c935b37f39fbfba5a96be6d63f0c756c528ce427978be7be573); (true,0x90f1448c0df3cb3aa9c4175ebe6e5a035a3fcdb021185f2e0ae68ace396290,0x206609dba716bc033c200ec23caeaed07647d9ccbd4eb5d951f3d1182e1880c2); (true,0x2b61cec7fd833d53a2de6caebaa9260456d5a2f45435388ca9acde409a5c8c0e,0xa6f7897841fcb604820955c593f0339f0f5f6853224293694fbfe647fe899fa); (true,0x4802d2d97a0c8c0da112843b34e4b454ffad92b4e1911d2cd3de5967a8f21b2,0xbb6d40b2f9c80a05ccd3571c8d495c194a47cac387eb0960fcc3677a0ea6e96); (true,0x5abd92d9eb33f2af6b5add33b88fb23c2f282e1e8aa50653445d8305c0faeb3,0x14b2d6e01820d4041cfc0e37ce8b4dd06ea339d5f236d78a385c4fa87ead115); (true,0x11b4ef8cdc900600a222d35bfde9b45ab63f1be9727f5cf32ca89e6f28d2ec,0x967cab66dcd86d80801413d4342f9e53c1a0c0fff0e8be8126c21f66725c486); (false,0x1d3fa81aaf3c66e9cd2682f505d9d7ba4d59cd91e1b2405a0c2f26c24092e1f,0x2da8dfd140aa3b863ff64c504fb2964c0e5a1fc0af69258fa8abf2c805904805); (true,0x5629dce28a10690fec6d0c4fe404c96719471034eb926ce54b5bf99db9ee1f8c,0x1a8288dfd679f2c7c74e8f61b459ce0b66a9d4c4e6af2d1151298f4d9dd780a6); (false,0xe85c8d03bc31257a56c63ab1cf07a7bae268bc54ea6d8bf07e8722958bb3efa,0x23607df4198cf0b7f3a26be4e8df4f8d2c8bec2cd12241449e3e784f3abf2caa); (false,0x19dcc376908c57266fa616558bb7539f45966d133252e25f02de33dbeed9b66c,0xd9050412458d4b8a47f24a1c77ef6d1d509dc5ae79cec82b560b507869d2a78); (true,0x79a81b9ce40dcc7169c9d740aba5d895fcd20f628685de32b302abf37f18ae2,0x6bd16ab449d2274f4a509ddaf4c2754bd3aac05444e75cce6fc304c6485a59e); (true,0x1e0711de2980934b4632e47c1c2eb80993db77fca13140cedc5cdb1aca2536d,0x150fe68c95f33121bb40842118230f6cd130b96299a07ea90384557305ffc79b); (true,0x12558dcb3884bca9440612441f29245e4488ff5df60b9bad48f1f11868019165,0x192e4c1511e2c8925effed1c3904220f91ade36148332ea2d467f1d488d71e4d); (false,0xd1a5a4205ff628210f72b6ec965d6bd0836367a9d1f7a69c2401db81b91f5db,0xa8e139af594ed99ccc64fbee1b3d3ccc0c32a62c1ebedc896c3b6874d5a2d4e); (false,0x24d5d1a13063b45e858c788be3a1d1051f31e3d43dafba465ece1be3f9e88bf,0x13d5158903da6e0dafa7e73ef5a03387adf889db71eb352022623caa7f3dfb05); (false,0x820bc2af8378334979b07158f3a7345383d3b828f4cab80f5933c05efa27d3f,0x14a12d81897c42c119b882ed900757596dbae40bbd8493c79b4881168ce250da); (true,0x1196c4c1c40b5a80e3ddb9f6f9b5d046313352664947663262f1a616f0f81cd6,0x122d4eb0da1768628334daa5f20112b2b7ef6e3328033baf101235f103e9d672); (false,0x6d3e135861e4901639a3628899fc1b8b07ddbde49e0b35de7ffe140f406cb82,0xe7eaa9521b01f9704707850c6a5710b9a44d53b6f4cb3d44875c191e71fff42); (false,0x45774786f3b450e4edd1045cf9b39253328528f1e2224c51a3720b5d871fbaf,0x2ae44ac0bbad9605c2c197c9d662cb448c503f22cd99d29e5ddc7246040e9155); (false,0x26044ed1b247ccca967141f34fced435fe72fc7a80d6f7f4a30a00703480ba0d,0x2503b301763bcd3fdc6f0add14adf1ff55e64931ca66f413a4e6ae877b4cac2c); (false,0x1c4fdf93e56649f2bdbabf210489a57c3baabbe7fefa7550aa7605612010bfc0,0xad07cc9f3a356f42bcef65e65f019ce98b76e0658775abc4df5966bd5da67d0); (false,0x26ab0abb2aa3a704661e50eddbb76d3a640e8e4bc58d84becad3ebc39eed1a6,0x1b4e47394ead0afde7319520461f143c91958b390649c49852564f5b3e6a375a); (false,0xf685d2d1c3c47f09329aa8eef924002568559c2297a957f4721231d9ec9aa39,0xf1d4cf863d6a7b7b7a645b6d7041feb7f58c141a2d41c451490066f6bb6216b); (true,0x97109104d25c0a974e46a9875350d75e325fceaea7dcb6e162afbba96ccc451,0x13a3885cbe8dc70b77d171661c981573784d54f46d5cf5908d354d506e34c121); (false,0x7f85168de38637b172645a7ae371a916e79a295bd7715f73d850e8e281e2bff,0x1c6699ba3dc80eb6d7814d991a000293792a11cf233fca2d4993493d2afc9a42); (false,0x10ab0f0b5766c41213b8d0d0207edf2d1d037c4026f76d7cea0808218945afe3,0x10d45f5a567ba9e56ea26510f12a5168d020cdeae7d036cf80ca67f25d9dc921); (false,0x5da5ab967fc50a1db8eb6fc108a39cb87c667fff084c98d81ff0b1482d2a75e,0x9bf2c5ee7ed7834af8dbb4159dfaa107e2e1fd1d7c5b72e57133ccfa7ac2ee3); (true,0x3ed1fa7bac3fddc6575a381967d0723666c03b573f0971ccd9448743682aa2d,0x1d2d82f29ac695def4fb51c5ae8988ee302f2bea667aff46a4c4175500ba1065); (true,0x232f76602fbbb4db0928679ed3e53918404b59d58e367277bac11fe68b234c82,0x207f3dfa92b53adcca76e33f3f5f2d1b9ccbb2c06d9ff16a0b6190553c7e4330); (false,0x15d2b3fa23dd149a3282a9867a46b08fad30a2ca1d50617e4fc7cf34cbd8c3e2,0x2abbe07f5949bc54e946a8b1f9c3edfb4c8854540228c7b2b0a540060909651e); (false,0x25bccbe7973afa3a80241cc18ac4b9beac22327e3041552bb527594a16a31c66,0x2f804ba9bddaf734b233480def27814fd4e780bc812a25dfcc203660a969931e); (true,0x5d40f66c076dc7b282d7a6502070c952386ddc1e55cf55b8b048828a1956885f,0x1e73ac92fc780e577d02ac15f8cf91a610840df9190eddfd03fb409f14f866a9); (true,0x2653462a4265037ea7bbc39b567c16b0216a343095c84c83b947a6fa54deaa90,0x127aa559cdb53e21be8cdae55d5c02aa21761ff30778bdd73783666d9c578c92); (false,0x70e7664675e3a292b6db0e116961329e3e963bc632cf69f7ac1e00893239da2,0x28c124a36828ed8f497ac5cb5ab4994fe966d3483e95790ad6140bc0554865a2); (false,0x22528cd4128cf1e05cac985c69398279a12f6cc6cb7ecbd8a0ce9b96aa27350e,0x11e859f5a244d57680b382c1c637b27f159c96e1a733875f95224c991d520576); (false,0x6a075ff27d44ca4ed80b0a05c56a52a7ed902424ab53e0dc1a86e65b2ae23fb,0x13a7af52f18c0136322e8d73628ee032576acdbbced45d1ee5c7b64e3907ae69); (false,0x7fbb086ed96182925ee16b1264649ff2bfda8cfa680cbc0a466084f173b3824,0x1c68bfc68ddedfc878948565d72345fa6b3c97cb90382402910c244eb55aeed); (true,0x215b298e1fa0506cc631720cf8e4d2223d9dd97dd55a4553fd03b512a5e1b4,0x148e3f426353ccb4a54474672cad0f4e5b9a4d86b3bcbe8ffe46b5cfab2c2d1e); (false,0x8bb45d73757b774d746ff1cd20908d7770e23cf3496de0dec3fdcb8011e3f7f,0x19134641374e519b2d10e57299bfe26a4a25e483161084dee00b353d8d255005); (false,0xcfe49eaf9869cd6c54b120dfd4b4e768edbe22b927d89ab567ce9b2614021c5,0x1614a5aee04d2d398bd0370cca3d409dc086f2de5293c91b9e375d7dab34fe54); (true,0x14267b14b41134d5c7a01dccd4f163a42e5561250fcd41d0f5f55e698044a4fe,0x194356f1b80a0adfd689758b952285ce544f85ecb77068f8857cec976d50f222); (false,0xd30498d31c20c38ac920d64701ac14ba5f6a9e3f501c4e7f37de6b43ee2b4c9,0x21dcaabe92acf7365abd772189557a8e59e92688534097b6c63cbf497f6197bb); (true,0x2f63ba92f60f61463f20adb99255e58e5c41baae3c1c32982128f62ff056406f,0xdda1121436e261dc5b9f220143c29e03c8794f9a9c0d59283fd0b76bef204c3); (false,0x3f7097eee43316e7ef399f24ac65def3ea74f0deb3677288b2c8451ca674411,0x421526d25d419eb45301ab052005120736c653e20d21510d1109abdba5b6878); (false,0x5a3da0355ffd5b36b876012b93baf02ed2be6ac4a8de2f546e8fdd03391ead,0x44d06c7b04c85d7b881c78678bc5cfa436479b0b61b9e8e62a84aab9cb89993); (false,0x61dae9b4daa6d8404f5205709019c2f4d82352c83625723d554e1d5a0f7ad5,0x245776a2270966d43099c33adac9c16e5c7795be511f7c7896dd74163d618f94); (true,0x369591d4abc6a7936f61ff5f7e734ff404a0a650828697d2525298d8cb866144,0x2e8ae59b39467a23f48c4ed9d236a3faa1850957c9b5bb8e63206000c1d6f9dc); (true,0x5987281bf37e3497cdd460c2ebced190f3976337921e3923f486a3ea235522cc,0x220cc11432706cb0bec3127cc03129b6315f79658601d753a73306db6c064754); (true,0x2feab2919f523416185073e7e8382758006332fb376256c37c24679d35fac2e5,0x6752b4c3b57e83b306281ed1fc43d3cd8b52bcd033f206289befb49b1a4a43b); (true,0x1b937a786492bc34909066704a9acf42cf6c34c05660a06b8523d032cb8e8f9,0x561738cfe03454e768d710b2d2cac1fd0f2dbf0dac32b6ce05835dd392e6239); (true,0x13251101cc7f24a80246285d4e8f275160f975bcc8bccef2ab0b7a25af2dbee,0x15edc99d75ee575c530063492fcee7ca2142037fc8de3843e95c4ba22d648574); (false,0x9efe65bd59715cab7bf34a9c31645d3efbbe7f5a081edd62aebfb3fe0bc723d,0x12af14ff346423be7c97b30405eadbb1a673b8ab8b43d603a313bcd33f754a53); (false,0x736bb384bff4aeb596ed569ae4c45da6b63204d9301e2340d3e72d6fd1a2be3,0x2a043c525c87d3f3ce936addfd876ac3ecadea227172a4ebb27deecf1257eb06); (false,0x247b2db125c95aee06606ed160da7ba2f5671bd6ceeb6a7fe332eac9ad9630d6,0x1e7772c79344e426039d05d78c4dffaec085c55b79c0e2c2b259257e2041d34e); (false,0x132e6365f4b016dc992b1c0ea174093de218b1091278e1eea7acc02b90eaabe8,0xfc51552356b003e41210be56133ecaccdb29a95ee1e1cd9147692fb6b1affdc); (false,0x523994ce7a9f4ba435768883eccd997018b86bbfa9f8edb8d5e28947f8537e7,0xb5428f3aa337602f9b6e3879fa129d6667374bde768a9272a770480d0e2cd29); (false,0x2a6f0de60d07e9f8d97dd41da6f176764cf860aa00be55e825b1294cea718ff,0x7c4633c95f3b37f92c16202c4e8c8406ac885edf89b192985afa7e0a2279792); (false,0x13f2585242e7005ad53629e314e47ffc97bc1189d3a72aadd67fe113110f524,0x23dc788e9b55dbb2b38df9edc92b1a72fe6d993cf4b4ceb7df7c1e55f289a20); (false,0x1a93463664052292446ff93f55be76ffd360dae8d6097779d1a5796ee77e2f,0x18594169915e5c1d5f433124d4469e8d75947a98605ffc08835d0a51c7e305d1); (false,0xc404d656eb58ce69a6241caab62367b43e6c828c8786fa221dbd07870be1edd,0x1d83fb71682b47081b7b64a3fe0f5ad51e3d6b4d91f56538428a77519e09b5c4); (false,0x12009c097c25dd7e36a2290903f08fc12b2e8d6938f0ec189afbc0752b291b1f,0x2b5205f410cb29cb2448b711c726017bf93cb8e4f81c58fdebc0b314fdada2f1); (false,0x26c7cc88b1c629b37b4942aa8be90770d275f0847855870456c108d2d6a57a4d,0x1ce25f2373c24d9140f7dfebd470c973b3d704bc3d2026970c250ecbf4ca6c94); (false,0x113d9374221cbc8de7746d3fb944008d219938e98bcc1e0fd846c309e4a498ff,0x137cd1da8902aac24df531ae414a0bc24a16b2b904f788006512e9dbb2f89c91); (false,0x7d904702744faa2b3b07e0928263cc556cc20bc8136217cf9df6c29194d02a3,0x181438bec30ebe67a004899ba2b8b9c68d8a3a7e1e51d46df7455c047364077e); (false,0xbfb37a57a6b4b35ec788e4ed5103db8a23fe3f615f5f075b89888abcd9c748d,0x1c71a06a82ba1b60aeff4e2f366f2b88d6a98bca3cbf4acbf5c7bdda110bad77); (false,0x10b802c8d1173e3bc34c37d12d257444d87ca9c41057cfb5d34d8ce5a8592f54,0x3001368eb0d1bdc8a47a5d0ec1e5040e55df2a20372d65b000b2f7bdc36addfd); (false,0x2f9ee9950ffa7c75483b4821c444c94822cdbf332b660fa9cf83fe87768e0079,0x21848d514f24bbe0e73e017ee96493fc4a6a1e5b69312e402f29c6ea1d74cb90); (false,0x17372ccc1f6735c900ba1b09f602a3d53b66bd14fd2495b13e99a42ba7d68d9c,0xdd2c9547d2fe1a1e74b85a4afae28618d34ac732d5d098870222925d4872364); (false,0x3f2df976eb48979f2066b919793d2bc14b675f6f68096b8828e7bb1a22fcce7,0x2bca89d891f430ce10737b120b9efb288adfa87abb091965d838556cc62cb229); (false,0x27a0bdf3538da2e089c2b0a6855f5a10e95d936d7473b9a14ab58ff74cb08904,0x11558b82eb48f4d3d7a3a8521e2900cbb96ea7ad68aee21707c026461964818d); (false,0x6358c3d0c70ff8a8f7f2d8391f1e3662973ff3eb4ac2de54d3e1992efaece7b,0x1c9102dcc64ee4b6a4638c3ba8aecb445a4b7376f966d2f01f683b17c208992e); (false,0x10dcfc26185121f6e50009468da76a37a9f12770d92af4b21a0e76b6590e4b4f,0x12ac3e62e48e5f9419ce08766868f0688d6219a725cdf30844550c0a3d79b8f5); (false,0x7348a4d80714e11071fc7967dadd93ccdc942719a65dfc1b4278f7638752c7f,0x829f7a5188c4f8566639141d83a3aa504a731cb708b97d7cfbc260ed6c5edfa); (false,0x160966ec37ca8932fa9f6a011839b39635d2f7e933ca591cec53264ff311f0a,0x2961a07526fedb9612d7a1ea7f803702a47ca01ab3bb611bd7f51e01b8cbb91a); (false,0x2362f0b7c81e287774b9eb4144921402558f0f3eac531796ebe0628d32f3c85b,0x2dc37f7fd13c6225b1753921a987b85f2b21ccc33fe2ff97e8c7f4c4f21ece49); (false,0x2b473ad7006ba8577f2799f3976973115ef1b5892c488fe13e61fedd9f623d54,0x27ffdde5a3b9fc1451228562741a484ef609b27b569fe55ff22695e6a3f3537d); (false,0x21100515bd0f7d08790fbff81bec9e9977c76572a73091fc451e173c3ed0ba2e,0x162915ebadbee383ad5a447d99d887a262459ff695a267c91e0c960369b790db); (false,0xa25ecff32c2f2f72c608ff5519a83e10058a4ca0617b3f1e0c25dbff4f50a51,0x19c6a1adba8d11f592364334ab2d559295dddc910132758d661098a72c1c1108); (false,0xdbac2dbf9460235a0445ec0ed29c05bc8a9cd2ac73d7ac3db57092ff5f8c078,0x299662f9e8574586530237c7b2e285cc00b75b8c63b1d725b7ffc6d604e94fc8)],
[(false,0x23bd65edfea402f3cdb0acc99e970f289d6d84b2f3c6ea111206be8488c17c4e,0x14164d1407184b86b6cd895b52855947f3a428a1525643c44e27b7a8ea2b8ff2); (true,0x15ac1d183dfc155b852eb2304b554d114829f4fefe920c7fe2f62a7e891775f26f1a2ba4a1425a4a164e3e288b987693fb68723d93786e94c942cdb105396a0,0x9dfd32fe7e8ccd55732ccab524e9897f07bd29e531ab96bc18a8b8f591f7e80); (true,0x53cad741f69147693bfd516ffbffc7bad969103814ab1889517bb2bcf1985db69c085b75c36bd6824f96a974675f7e9cb235d7e99b78c55b5e6458f77e4da4,0x101d08329b45bba75574ebc792ffce263292ed9611e9c9c131a8aa24e803b25c); (false,0x55d8b5f1b706dbf4159c8202f2861f2b7d3a43d9ef4d5280d247f294497de95,0x240f58b01e17416cc9f2f0cd3fd90e2f3de69f37a23b84793451c4d075d4327b); (false,0x1adee30224f71befc55ad6a7706f7d37140c07bf0379c0c7f4f8eb93b0daea06,0x2919b9f31b823ef29de7ec6f787441ca15456d7e021b8e7cca77bf7cc2d15d13); (true,0x5abb99c9a0df5d221d01566d20d6c1587ab6d6b917245895c0a21b39ffa58db23dc7c4f9be80dab4b54ff2d8ad78c0713d0360cc9689aa388ce2616a6362d5f,0x7e4bbf8b24c8d823eb098cf4eb9468963a0be2a962e8d1da791b20a34de43a9); (false,0x1499d57f83c1923672bca63ad60ae7136930bfc9edb6b9932f30f9cd4e73169,0x30431278d975fffd51a4eadadb98080b36695422b4d7a9a0bff1af6fce16b428); (true,0x7d1b57f24b9404fa949d5cacad83c82fc46c1c421ebe792bb5cbc71e5664809e97d14a46046f3b408c448cffb3fa0c604f704dacef82dfce9e5affa7a9d71a9,0x13d7af05a5534ce13def62e94630ca666a56292d3ee608e2f294441adec73057); (false,0x822ddc75d97f617a19f50c060c0a8a703c1b2fb5c4a1201e8cefef73205a474,0x1b961760f8a62e9e90968efc293b46fb0c995f2937accded875160bf225d191d); (false,0xfb9d2c9d85ead7a6ca57cf7cd7d40cab4f9ec0b1f74e9a78c981132ed58f079,0x28c8faf86bcde4bfe3e4a346e21b99ae00e9a35ba960abc2e00dc0ad982fbcd0); (true,0x5958761d7c2648062f5497c7ec9868aff32fb5a29f81dfc2f7f63418208d3b4d153f070ad26ec9b4885bb39a2458d5c5643691adf78fe99f7112ee3c93c83bf,0x2806f39ddcfafa59c922575efe3afaadef621fe9b57c40c9390d1581391a8441); (true,0x560e43cc8c5f96c0c9972d20f42071ab6828ee62ae812868676760c3dee62f63df13188deb77eede0eb49d5f27b007aa879a3545e4bc01e416655c445adcabe,0x2fe6e8b565df4ce2c5c519a182203496d1dd6cdea8c3c58f7ecd6502ddd6290a); (false,0x2f6ac7e8f3dad71340d147db5e030ecc997156be7515258dfcd784019054e476,0x1b3fb985c5a0fabd0d131497c4cc73dc65bb6d56a1ce030e84b8c639b6f74fee); (false,0xf57f4fe3c8c87280808832e84c221d003d9c8d07e36be9b4d0112ba6dc23a99,0x1db89c97450a4c6cb90af679c0e48e751c536feb7b5a5a0b5aae1808e07686ab); (true,0x2f72389fe46e65d49123bb27210b3a459d81f91445200506a79d1eaa59854913884a2def477f480c5c6c0bc62dd9bb70354199f05281fa6648f1b14c14533a7,0x29d5437ac59a794cd3fc3e8f6cff77a287178d90733525bd6c379d50068bbfe1); (false,0x2429c9f9bf46f49e8afb97ba267db2a3e160b094b6557ea5e8df3395ed7c257a,0x237986076e99ee1d7a530ad98e625d191837b8916b90aad047a5e2222cab5e47); (false,0x1a0169adfec2efb976d6ab27da1c8d0bf7aa55f05cf47127a43d070ba227741a,0x5a190dc26bf9f8f91a957ef74d4cce83c68cb220fd5ad971d6b31297b6ac397); (true,0x1b4034c5cf94ecd1284beeec63df6ffd5779ad233d069e4fff998dfdb53f7429fe4a3d2ea414c594dcbe61a6a1d53a1005bb8876ef12f20335c6507d2bac09,0x1e624c3ebe5c9bb837e4bba8f723dd626dd203edced6e9d9e78413c53544f83f); (false,0x1313cadc747e2f174099c6853e5f126f01a9f02de199c116ebb9526ec942e485,0x146ff96f4a12696fa4e42f994195424bdce1b39fc73fee3af0a3824a6eef3afc); (false,0x8a1a0e8e83e86aab62b721144d92d9327301fc6c9d02f73268d80b9a34a9371,0x1d6790829e56736e4d65b44f80a03ad26bbbb5eb898063996b4e46192cd4949f); (false,0x11de0258a363f2775ce977159317545e7e15aafd580e1a05323570b63be13dbb,0x234c8c5a4edeb563a9cf667990e6df1ecb2eca043cd1be26566bbab499befd06); (false,0x19bfa2c44a0555a7778c18b9df2ec98df02ac39e64cb197c29d4a7dcfddd4a9d,0x2a321a6e5ae74f14ff8417ebbc4889db7036defe99a17599124f2a668d1f9187); (true,0x5fa2017290e27b83f661a6068d78cca5ff026b01c2a03d9d80774d236818d558e7fbffa29f7c2ea758638479a06b58ed449440690dab695315c2f94c3609edf,0x41fe4cc45d65baa107d663b9ffdfa4135b975c0447ba57002d3e86e8b2c0e69); (true,0xe9ebfdef21fcb737a1027a6b1bec4a10364a97b3c590eb044562d5a28f0eeec0e47ee0b75cd6afbc1d391f6272d420b855239deb9a5adbac66470ccec167f,0x1d3fe69eb31bc2e4f53f1c176312097841fc2dc47af7c01e9543f695f715adc9); (true,0x2df3e0ce2d5fe77c7f434b9c870326dcf9ff676fdd7fdb0ce7e00566384c1e0783b8e4b5fb1eda74fc67ae05f2d56de392d8450e8a55f8b27e91edfd67a6fd1,0x19198e49d99e0a921d52a1da4ed3f77f20155fc8554f7b15ecc7bf8fdbf82a77); (true,0x21d6ab660e7db17a463a9a1bc49fffc866de43e33d540ec9be1cdd398aca760efeb2e1ca9a144bdb3168b2e6a046e05868133354d07d9aed4f0121bd7cc6aa2,0x1ddb359ee3f8207ad11dc20ee84815e5b8ff6df5453e88a8688538bfabff2ba6); (true,0x2fe0ef41488487bb883d54affac46ebf8fae6d1f15dacb9a15383b7a2e6a0b32c03aad50ab6e07159566d51ea4b382eb719213d253ee6b4c5669e5b4244fa42,0xb93404cf0f54dae63ee503fcdc7a410b2e3aa7aacfacc74530fb2c960bfd9de); (false,0x2c4cd55e57de41f6c62790918650a222627c3ee6607cc4e5ca882f7e199cbeb,0x137cd6208e61b679dfb9bf4696034355809d06777d298ea22a598b421145099); (false,0x7d907e149b8dd9fd25859df214a161a46cd2febeaea1209f2658a83ee0cad,0x90751ab47a7165b72dbde324c1e06d7ca37e7a94aa84fbb4d45dbc86f59eec4); (true,0x460db577678ccbfbf6939a7a417c21315f3bd286e98cab596bca8e00025e480208577c48dc74f125e048832db3c276c21b9ff5f25a654a831618125c428326,0x22a585bd8caecdb6ce5e5dd927b6aaa57748f53fc4a1cb65c8fed46cb3b9295a); (true,0x407994c10b2a4c984ccba1610231c16c4bb3b0948d24f6bbbc0b55fc140403670a0e5671e83776014847bb129455bc04bd1db20ae12fdbcd1e282949a3a90cf,0x1141eac00f7d9432ab3b7f9b338c5f892f449cfeb4ff59c68581bab1c7bf6351); (true,0xfff1bdd5463a5cd746f9b45d4b395a19a0dd8f4a2ce43f5ac09ecafe9116839ae605855cc63b86d03c7186a9c55f1251c78522c4dba8d19c005f5abb0f2120,0x1165f3a1cad4534b8841a198202756a939de0c79f9bc99c4bc96a7df601a43a8); (true,0x10422f49573f48bc206f86545af572c149fb18c7f9671940f64bd5f89fd3fc3cca88fc68154447cc2666da5451f6629e63e00e05195b2d15dcbfe94b304f003,0x1f9875ae7026de7e8c8140eeb4918059e3af3dc4763ce8b221a159f2326271fd); (true,0x359e91a97ca6625bf65427d58517eae00838f61d92fed72f8a4b7845c7226e0590dfc36b3896429c8032e615ff8555f6c968f9d993336bbf218f7f940b9e3f4,0xb82aee0eb09d1fa794b90ba2c7124ff0aedb975aee3ad6c28cd7ad9900f8a14); (true,0x71dc90fbb02ca270a4f8ac95960ed6c9487275180ad08dd1a75913608d10fddea73455f1a803f94ef6253ea216373bd68e56e4092509607be5be268d9fa0c2,0x1f4eb7b568105e216113da10b635861ed215ea035d4ed2d1c0fcf0645e1587be); (false,0x144130236be36b825bcafd5f18c49c85a570f0149cde227dfdf020008cf19254,0x250ce00d0889246a92a94e1856feab1095a7c763d2bb571a06521a83c8345eb0); (false,0x1c5dead7c6327e2bf2a122039c1ada3d02ed64a5f8249f55b91897fb6730fcc0,0x3064374f63c0f26cedd06fc7918cae7c0f5be935b463605a1c8b1f9a3354bc40); (true,0x7dc768775074078b44f6b96fdf133f14ba0c1781261934f1e3a94c3db3374903064f3e047cc79a92d379c14d8d897b651d9b7d2a541836f1491ee9fca95ff33,0x2a568fec0075c258e69b486fce3adf5549cf82b5e8e498cbe49464ade25680cd); (true,0x60478be596446a2825af2c9eb6fd44ea887c8fe4d505d5be2dff54c3be94fda0c335af04e1834ae89607046389c974c7c62adc8cf8b1eb8b1de59e2986e351d,0x198a203e3215d19d54d6242e0d676762638fd54ccb4d5282a847f1599a13b1eb); (false,0xd7a999d6b762655ac22c9c32043a0fa25bc78f8cb0150e92b29e34c8e745c79,0xb2c721ce4da7d3caf57988e593cd6ec14ec946681620a44a862fe7fa2147140); (true,0x6b4b69c771d654b54b5c73cf8f7389796375443da766ba6f1f1ec5d8d93c5d9cd6c5b9724ac706b7c570b24dc94da61426f7ad846e8f7542d3b460f70ab62a,0x6a05e118831cc3980ff1392d5489aac2fc230b2882db66359ef5383d05dc9d6); (false,0xe849e2a86757c7d3da87e7c6cb68c49b6520275429b3b6f090083cc332b3b9,0x28fe4e7c96c3af7dadb054d1705c99ec14e06f48632386f7fc40e66d16b0b2b); (true,0x5a42b20deb719eb36db9541b9d4bbf59b478917577362c729b61bcbe552a96eaca399acdd17209752f084d630d6b2ed5a3aad2cbe63d04ff8864d5a6ff581,0x226a42087348f9a07a361304551a36794894752cbe3a8fd640c8021c101a5607); (true,0x3f9dbe5d04188679ed9cd19ad8b0289402ecbb96427b52a869b262f8b04117ee404c7c7eace8e888fed5e8c9700c85f322331d377f60acbb07fb4895cad7e41,0x2c3c76e52a19a9669194ff38d5ceebaced8407618d2d53f571ca1af60db36707); (true,0x691b06874107c8afde82be649ad4acb901a4833bcb1e189022fcb7738b840c6a15d0f3030be0bb831241f1abf0f568abe91ea6c83c8c38c45bd41d4dcd175e7,0x2329119199a6bc308fc326f279b99d50aa357260da9603f1f6bbec76f2535f61); (true,0x4266cf14e9ddae6aec0b799392eac6a3a0bb0a4da71ab4c955338ed8188a475ba2d59749f0b384157c96031511c83cd83705ad7514e78bd618e411be4ad2892,0x2315cf1502739a5080713d02bcbf4a6a57b9162a978905a8e7ce03ca83888d36); (false,0x197004f4c156f6c289d49071c3e196486af18b7b841704f7ad85551e5263aa37,0x126b05ad01ae8d1a1be725d1a5a1b40c2c68df86a390e70f610014cb8e0dd2d); (false,0x7028cc631fa7ef392bb715c8843d68f636d9e7071598d17c2c4f6a2f2459f,0x2ecd6b5dccac9a51e238b81307c9e176df6086948fd5b501a25da4a3cae4744a); (true,0x75a770898ef37eba587a55e17674c921503f23cac3c337a0767b64d236a520f3c6dc99a3fc004f85c7acba6e11021d15c85bdc88060b5e33be06815c44c8c47,0x11f9662095272b35ebc95630af0a077dd103380611f98a3eae7a9e791bb685d9); (false,0x6ad19f6ce2ddb91cf2fe6d8e251423ffa60d10a43ece489796de7db9c5a26cd,0x2c9f2198245a2cfc3be8adfb29721a795693b80c36291d61e580808d902d0b24); (true,0x6af1ef323b072bd89fc5f1b25b264a2b0032d81bdbc5d73f49e07a0c68fd4e20f7eb197c9c43362847475f6df57a33d4768339320ef938b6626ecc372f38314,0x292427a9ec0cebdf58c59836b708642480947340344f841fbbda9a9c59cb216c); (false,0x22fa1cc2837e644dd857fefa5575b7836401586ad39406dbb1a2cfbef9e307f5,0x186fa1672e40bca0fc8a663b489c1f20181308433d5e2da409fdd82773c1fd9b); (true,0x20128e1b579d08760ef1a183ec7d7cc6b142eae93dfd4e98238239c5d3fd25b6f86be3c240a41fae6ac90acbfa9791bf1eec8355c324d7250c1e6fc517391bc,0x1a82e4116390cc5b03ba34c0a8a558d2321a182bd2360918bce473c920e026cc); (true,0x25c0565b86c5603cb80cf2d0a5fd40e0bdff359c2abb4428208f1c64693abee7618b3d6ff24f719b79eaf7033037f0b37492b73cc8f2d540c3c1b5008235975,0x55dc892d609c6fecd31e226470a4f567da2737fed672de81caf81e78b76970b); (true,0x18bf967ab7b4de6fff0fa8801d013daccd498378c1f51355f98caf82bde4e4e27f9a4cf7c4fcf10327df725c42ec2850cf48fe1e052b9768de275eb07da339,0x2949238202d11cf4f2228572a8ad882dfcdba4667351abe7d2ad327c537a624f); (true,0x5b8d67e6879110aa35b1799582fea37a8930b323d819a663635e7b23d9849d874dbb385c019cb7e817e7f8eab0451a9030d6dbcb3c7a28752225d5a320ac77b,0x27f2bcf3aafbcf3014eb1155489b9734bd134c1316cdaa6f630c76d3d1dc134d); (false,0x20fa547fb603e884fbe642112d4db8aa17b99e3b41d81e97c360d1223bad092c,0x1bfede5291f7c4e960c56b64ca3d720a2a71a10286d9ee3b8eb177a36c1f7bfd); (true,0x2a18c8ea4469ebfbdf97165b30e2e3f2b1456ea773d5074b13f7b6727d18f010f1a8457d7d5c5e98b1b5a749f4b40995e93f9ea98111a67058307216f36861c,0xbdf58288953de263d2f35f299fd75f27899616244343f9c2a830ac8525007ec); (false,0x2e9ac0d38693b245bea623ac703c751a6bab563ba9c2c972858dfb17d380570,0x1833c5a41712e2f0eb20fac3dbc580b22876668d0c6cf9285a1d7abda686bc20); (false,0xc1ab2153bbec76120a44cb01c49489f9d987061b15954d89fdbc66381d097ce,0x299debabfb9a099ec03d4a25a732caa855c0f68116d47f106e26a42459ee6c32); (false,0x23ca5a1b2483bd49962a64e6753ec65a39baa9763f502e666533b4a278a10ff8,0x2614b5aaa170598b2580c2e773ddfd18e709fdb74dbbbbb4ec16ec55261129cc); (false,0x1df7893b0addd0dbd21aa56c33bd3625d1195aec24bf52427e1396916fe8898b,0x2f125dfee7c919eee4e22c8044e145af4ebf0e079d7cd54257dd61b264027105); (true,0x770315ca2a09d7cd2438d6c0c8f74bf65b906532ef92406acd968f952ba3981535fec27c4050394d2e74058187d5f9e9c17cc2c8a538c4c59947e401cf91332,0x290129aee7bdaa520cd794ced2e50370e59d12aa4d37ff46fd482b05a608756); (true,0x5a4f466f936b52a277a274c5d151662759d2ab4d7d2c34f235276b7523f166adf28e49872570c3063f4ffff414527542e2612c7c8d550ce77d2d24348cc3d,0x8e701114eb0bfea3dbdd84dda51240dcf0d8d52018c3a9fac38452feaecc1e3); (true,0x441bbf55556be5e331cfc197725f6ce32879f117d5dda4ad4a019a371cad53728c51d8d71df3e19ea80962860a6cf3e1a4cccdae09e6c6b89c19ad023a8486,0x2ddf233601012df88a20cc2b7c616046ea604c1f0da97ffb250fa11862f9f382); (false,0x2b7b917c901a32ed76409083128ac6a750a7befb88748643247eaa109da22846,0x176467b5174143ba79e94aced99328cb60755b523927c59c1232b0d6e4e1e5be); (false,0xb4ebee0843e22c2b4e73686e3e81ccb67e5867fe812325270dc738435ef6bc3,0x30319b1973c7e84ded3e6e85dc57dd748024ea18e11a1fa4b0019b4103a0d41); (true,0x7cc0da9156d69d4b2080cf1813a8d977d8665b649eb8b58f7754b41cfdf9d4a1c6a6876c4ad5d689c7deb524366dd9670d4abb49a711999d261000a0a651b,0x301afd7e9a0676791344596f003fb3224ff41a6ad1646c6ba41d279f86d99ead); (false,0x2fd21b9e4de6e51b7d931c33300877d4a079d9fb6131e7a451a979ce4518c96a,0xd8cf583f4cf5b0a6fdbe527825be5fecab2b01dfd3b2bc6d64d8b81da8b377f); (true,0x9dccf581c56a53f274f060b4575b19fbb7c56c1aaf410626d43860b276ee4fbc5f78efe49c252ed181b941168aa54234c26d607103a56df5a3a149fa89e52a,0x2c9a2abb628353d635463ddb07bbcdd206f50cbd2d81ea973954468357c9b29e); (false,0x291bfffa0b72790d020afdf2a641e68ce5d496d81aef04d4e2ffe90542514b5d,0x1a77729567b1118ec135a4e9f42e933da2e15a703835e10912e84f1ea6ace27); (false,0xe79a59f0960f17a8ffaee0f89b395a9c058b4c85d2850ae8afb49975dfe6b,0x27aaed472f1a6bf74c19199774526e4b2115177fa9ba48517368329dc2f0cb86); (true,0x548458efea7f2c7c94311d7e8278b49bebfcc756dc085ed8ff512e604b0201a238e7aa91760ef52c2c15cb6fe7caacd842a36d768a9cba5bacf866788fb17cf,0xd242eef20b41367900abbbfb47d952b4a79d6950ca44dc16ec76000a5eff051); (false,0x39194e77250e6c319fa7ede0e19821448d0d434a175e37fcf39b2a0bae01c54,0x2b4df3370963e36159582f7e3c1e9d23de6e426431b6ac126fad773f87f5dd4d); (true,0x64b9897de9784eb36aa742d71a709e6f71cba65a23ec3a74c52c3eef59ccb9f379c343bed80ff0868e3f24d81b4804983c223de810ca2089180d12285837d48,0x1414c92c4cb959c2da2c60d304841de6b0867aeee41e58260184dda12851c0); (false,0x85546b36070e5d5785ab357e88bb0cf518f6641b4fafd0478f00e954d38,0x25f8fe7b0868a8d4a2c878916540bb5555e6fed8ba058557095482309785c2c8); (true,0x4d72c200f36b68e7fac1650d0815d94c52886ac4213ff838053c9a8cdb598a767baadef9abb9435c57df023356be9b71867cc29ab8d2799d6df4d76baf9f554,0x1fb2bd77e5ee59bb74a1a1f4b902d4af12123059749afe333bc0a40c4548dcac); (false,0x14c36a985c9f5d0e70b4e3237e7e0f4713d33d1f5ffabf35226f7c891b4b11e6,0x1c0fd99aec80b8b20da59a42b8e411248320cbc5c1a8152718e9296edbad01aa); (false,0x1045d702e4483de1fd96c9a46d3328b59997c5ffa57a864d0b7c9bc8fc698791,0x15947c2d00f2d7f5648b0d15f39c327e9e5b86592c5592b856442fb82f5d3d53); (true,0x190372efed77d9d9502cbd5d666eb95604404c288f9e1053e06f11e3189c6240ce5896c925f1f16ed624d5bcf8d69dbf11d0901010efeb14a1d0935e60c5c6c,0x84a9140e20b7b46a57ca3f25998294254a9a7da040cb353f8d5764cc718809c); (false,0x16bac4895649995759e848ca88d46590634c5dd4f81311488785e8459eb84e0,0x11867375f550e7b5eaff8db153e3c0c43504134c6d424b489d7e6f348bf0da30); (false,0x658c710750b44dadb799aab44836219c4013af89ff4aa93c399409d9e13f5f1,0x16829601e4c450272a1c92fe05d7b517fe5bcd773c9d737d075add7765e1d30f); (true,0x1b374f8cd392bcea63ac267bb14ffc851dae562a7658852e2df883c80fc284600a5e443ec5ae98eac884c388784805eff4646c0472b82a09b09e02c27f49ff7,0x3ed12740274de9a894362b80ea711fded37848eeda95388a9162eead849ced1); (true,0xd3f21e63068866e86d976cbacc65196c17100ef9117e593f774773a9401e16fbab2f9a45fb056774ff52201b7594e8124e3d7d082e179f4f2d859fed1a6b0,0x1f7ddd2f2d12c9aa0f588ceb0d0a0296ef3b4750cfd626f23ccd9eac80403618); (true,0x354472da3a9ad60586dc3b01a82f7b2b7dc692ff7c3923d4c4fc40c21dd827bb0a723a927669a3e506369f5e803e461428b1ec499afca233c22b120a5b86dd4,0x211b8caf2045213dfd6cc1ab641a2aedfe7a81df1441c64a55e8ae981124142c); (true,0x3adfd54edcdfc8335f7fd79dae17d4d1d8636ad5bbc3d32a05ac7199c82a2584f76b3f29d8b25c9cebce08dfd23ad1f3dfc8f973ef079189728c0d50c350d8e,0x2733abf8df6da3635669f39d9cd41b4bedb72aa890513f49cf8c48bab0354af2); (true,0x528b27c5c9ae1fc3686cc33047ec111f347aded21e4bd4d8f4c45a55dec1a0988ca692e1a90009313feb1b1c952ebcef9109ee18bb13c680f9d4c25703f796a,0xecdba668be6ff9c48145dc91a165eb8f395b9a87fb469e5eb1ef4d8614fbb6); (true,0xbc5540e1cd8828eb2d08f8a3c8a6ad78c337b0d944bcf820224597409d1b2807cc1c64c85348d2fe8dc55093436c30502b4f98a002c6a1c4920f73a22a03,0x13f4da79ca1d937eed2739aa0c7ef490e287c6155d7d202928e8d938b7eae81d); (false,0x83adb4007358918a3a1645115e1a348a52472fc0b4b05edc60ad51684040dcd,0xd0e1902067bc0770d5f1f7b778afaaf72ce681ae741e1b2a373a658e974857c); (false,0x385a035ba3b200fd407f988043f4daa16548c38c212f86b270c5b72b8093b20,0xe9193eb33f3a07f27171b10d35b91c646fcbd6e2566a3e2b9ee4f043df0d8f0); (false,0x462d01c0753a7250fbcf81b22ee6956fa7a41879f104a53038a4fe24b0e9365,0x3c02dbd43ff9721856ac465c418ee41e871aaf10908b0d5b18c4b69dec74d9b); (false,0x4a6ba137fe52e0d661f90e7a49997324a831db27295029687ab12a6e1cae50,0x259fd4dca443f017da722f095c2731018c7e309c93930a687f0c84632463ed89); (true,0x4c08b799b939b7110d54c8b2e0f8766b57da945752c5a6ddf0fccb0e92d5ffd15e87b9e513b7ce16ef51e012042c6ec0c89b13b06b2eb8c8b68d2fc006d1647,0x1)]))]);
  (271, [(3,3,(2,[(false,0,0x4); (true,0,0x20); (true,0x7,0x97); (false,0x54,0x25); (true,0xa,0x1c); (false,0x2,0xf2)],
[(true,0xcc49,0x1)]))]);
  (1853641, [(2,3,(7,[(true,0,0x157); (true,0,0xc90f7); (false,0x5953e,0x1b30a3); (false,0x1a2353,0x16739e); (false,0x11d25d,0xb027f); (true,0x1dffc0,0x15cf47); (false,0x10d131,0x13de38); (false,0xdf4c3,0x152725); (true,0x6ebca8,0x2af87); (false,0x4148,0x657a9); (false,0x16c16,0x4404b); (false,0xa392,0x41857); (true,0x42678,0x70abf); (true,0xc45d2,0x877a5); (false,0x288eb,0x737d6); (false,0x1d790,0xee6d4); (true,0x36f4f8,0xf4638); (false,0x83f9f,0x100069); (false,0x90d81,0x1c48c8)],
[(false,0x1c48c7,0x1)])); (271,1,(2,[(true,0,0x8); (false,0,0x40); (true,0,0x2000); (false,0x24,0x5c3bc); (true,0x25988,0x195858); (false,0x16b618,0xe568); (true,0xe89,0x882ef); (true,0x51f64,0x570be); (true,0x217c7,0xcf6c9); (false,0x5f126,0x19e2fb); (false,0x17b135,0x9177c); (false,0x2ec26,0x16a3a)],
[(false,0x121e,0x196b96); (false,0x16d8a1,0x95d7b); (false,0x319d3,0x1fa6e); (false,0x236b,0x112041); (true,0xeac2d57a4,0xcb776); (true,0x816ff7212,0x12e286); (true,0x11d7537248,0x1841a0); (true,0x1d6f099687,0x1)]))]);
  (13, [(2,2,(2,[(true,0,0x8); (false,0x4,0xc)],
[(false,0xb,0x1)]))]);
  (127, [(2,1,(3,[(true,0,0x1b); (true,0x11,0x1c); (true,0x12,0x42); (true,0x66,0x72); (true,0x132,0x7e)],
[(false,0x7d,0x1)])); (3,2,(3,[(false,0,0x9); (true,0x1,0x74); (false,0x69,0x79); (true,0x159,0x6c); (false,0x5b,0x6b)],
[(true,0x25ae,0x1)]))]);
  (3557, [(127,1,(2,[(true,0,0x8); (true,0,0x80); (false,0x4,0x86c); (false,0x51a,0xb4e)],
[(true,0x67f9c6,0x59a); (true,0x198769,0x80b); (true,0x34a1b7,0x42b); (true,0xe224a,0x82c); (true,0x365511,0x8ab); (true,0x3d2119,0x1)]))]);
  (1263766531, [(13,1,(2,[(false,0,0x4); (true,0,0x20); (true,0,0x800); (true,0,0x800000); (false,0xd981,0x3937e77d); (false,0x2b76a408,0x85886f1); (true,0x1d96f3a,0x3d745814); (false,0x32231edc,0x37d014fc); (true,0x52b56aa7,0x16d81c2b); (true,0xddb1b18,0x12286d2a); (false,0x46088ae,0x116208da); (true,0x805daf6,0x1ada9a66); (false,0x992cd7a,0x4931c036); (true,0x8e3ece3a,0x3a7f41a); (true,0x5adb07,0x3c3dc033); (false,0x302d5522,0x257df2c3); (false,0x12a92941,0x310538c6); (true,0x3fcd670c,0x1fffad24); (true,0x1b2fab82,0x21233f9a); (false,0xe93f6cc,0x4911b440); (false,0x46e12d3b,0x2e9444f); (false,0x1ccd8c,0x3ce517bd); (true,0x6274e31c,0x3b0509be); (false,0x2e3e3a72,0xa23e1ae); (true,0x2bae57c,0x302a2414); (false,0x1ecc0bd5,0x2bba0211)],
[(true,0x455ea6bd3908d99,0x14048466); (false,0x551d157,0x2d03509f); (true,0x4982df7bde4baf0,0x1)])); (3557,1,(2,[(false,0,0x4); (true,0,0x20); (false,0,0x400); (true,0,0x200000); (true,0x1b30,0x10916e70); (false,0x3a4e7fc,0x603e90c); (true,0xf5f155,0xc726121); (false,0x20e8301,0x41af13e); (true,0x728d30,0x2abdae78); (true,0x3080d7ff,0x23dfb483); (true,0x222b6626,0x3853fba0); (true,0x543e25b8,0x262336d8); (false,0x134f17a0,0x27170f60); (true,0x28922f93,0x1ef4d547); (true,0x1971a235,0x3ad590c3); (false,0x2df3f42a,0x2759200b); (true,0x291bc64c,0x10e89e0e); (false,0x3cba755,0x880d6c5)],
[(true,0x8298bde25434e,0x26f5e8d3); (false,0x1426be4e,0x21cc3aff); (true,0x80f2c37dafd27b,0x2f3b4d54); (true,0xfbd4339f6851bf,0x44fcd493); (true,0x21941aaaed2ec38,0x1804ae25); (true,0x411f0f8918bf6e,0x4ab09933); (false,0x4a0f06e1,0x41eadf86); (false,0x39af1002,0x3fae721e); (true,0x1c9c9e1f1eb8d77,0x1459e82f); (false,0x57f946c,0x2956b5d); (true,0xc0e8ca8883e4,0x1)]))]);
  (35385462869, [(1263766531,1,(2,[(true,0,0x8); (true,0,0x80); (false,0,0x4000); (false,0,0x10000000)],
[(false,0x1f1289,0x412290883); (false,0x202f2e4d1,0x42e8429a4); (true,0x21f5a33c4cad1359,0x79a51c373); (false,0x70411e481,0x6b40236d4); (true,0x57427f257bdf97a3,0x56d16b6e1); (true,0x392dc5941ffc930b,0x4c9aebd59); (false,0x2c847cd44,0x67ec0215d); (true,0x51ed6a90dbcdbb08,0x1d0266658); (false,0x6624cba4,0x635c360cc); (true,0x4ae48cc0568d7711,0x1b97f275b); (false,0x5c6aa577,0x59af3b9d6); (false,0x3d04508e2,0x400926bda); (true,0x1f1b6cf5f198ff2f,0x22079565); (true,0x8c8e535d1f286,0x2ff2e9982); (true,0x1170e6acb0bc180b,0x4e1879459); (false,0x2e4443bb0,0x207763581); (false,0x7ff05336,0x198ec2a13); (false,0x4f484eae,0x7068fbda3); (true,0x5fdb7e14d2517707,0x154cc4aad); (true,0x371113e1151a2d2,0x4004d5046); (false,0x1f173ad4a,0x4be9a2992); (false,0x2bb75dd96,0x3a584a476); (false,0x19d2e61e5,0x37d0a555b); (false,0x17a2066ca,0x3c9124d47); (false,0x1bd40b6e5,0x4d15c7fa8); (false,0x2d13bae24,0x2ce400c4c); (false,0xf4982aa8,0x7d5c48cc8); (false,0x77376be20,0x49f743ba0); (true,0x2980ba284bbea07c,0x5ca99f6d4); (true,0x4122ec2557e0d303,0x1)]))]);
  (2480874801745591, [(35385462869,1,(2,[(false,0,0x4); (false,0,0x10); (false,0,0x100); (true,0,0x20000); (false,0,0x400000000); (false,0x1d0b9,0x2868d16a16dc1); (false,0xb944a456a74f,0x4a128c70e4008); (true,0x4dd06a83cc178,0x37e9436b723b8); (true,0x2c55a56052eb8,0x50d4880f732f8); (true,0x5ca8f57a2ed9a,0x4322bbf0adb6a); (false,0x1ff60acc1f836,0x70f933671a54a); (true,0xb502097f1328c,0x13847c8cf28b4); (true,0x56709fd1f92a,0x6559a91f9941a); (true,0x91ad9ce4fb44f,0x7bb7282c42ecf); (true,0xd91108b9e6af5,0x64fc85466fb9f); (false,0x48512b70b885c,0x46917dea2aafd)],
[(false,0x235020c00eab2,0x5cde6a8cafccb); (false,0x3d28805634832,0x7a7279790713b); (false,0x6a51c2eb73429,0x13a882ec05c4a); (false,0x2bd86f88d111,0x16f05d1daa43d); (false,0x3bb36e75dbdc,0x8a6f4a26d0445); (true,0x2575eae2db1e89d2c78c36a432,0x6fe8b7feee777); (true,0x187aefa0c335a5a0f07d001820,0x5e824b97c302d); (true,0x11759f4439053265118f754a81,0x33956668a5b0e); (true,0x53385580a100a66b742bf99af,0x74f89dbb5df9b); (false,0x6105c396055ec,0x83d29763a1425); (true,0x21f7b3e13a034da2eb759aa96e,0xf103e0746953); (false,0x19be945d9033,0x2a3ef27fd9274); (false,0xca7d781ff187,0x5bc27e9dbb0f); (true,0x10755dac8770f3319758e8da,0x4d9919982aa87); (false,0x2ab2ea2b46cc6,0x21c9879597da7); (false,0x81855c748217,0x5e277bd388280); (false,0x3edce964512d0,0x55d55e34a6d50); (true,0xe66b3e22befd34adf73b62e53,0x393e30ff4edab); (true,0x667b73cf10ff9beb622bd649e,0x5ee0e0356d163); (false,0x3fd56bd5630b9,0x2c1c5f5d79a0a); (true,0x3cdad816b33c862f3bf393699,0x23e74daac0d75); (false,0x924126722529,0x1c141a428092a); (true,0x18a86227a5df20b99a5b29805,0x2a1f0bd1429c1); (false,0xc94c1b9ebba1,0x1e8e661ca356a); (false,0x69ef138a3187,0x7d6840b868663); (false,0x6f859b4ec9b95,0x3f1e961932cc6); (false,0x1c406358a96ce,0x1623b31a817e2); (false,0x379cad4a8a97,0x3135e2db14f93); (true,0x4bbd36b4296e8e448a5227ccf,0x3b60e9787adcc); (false,0x190081724236c,0x41653a44d205c); (true,0x85c072ba8d41f194073c5d15d,0x274d48ed34d55); (false,0xaf40668c67e4,0x2396bab8c823d); (true,0x279cc64f9e197f499e217bdd6,0x50b176c9936b); (false,0x2e2c505447f,0x10a7a659165f0); (true,0x8ace4f0fe506738d54b9bbf9,0x1)]))]);
  (13427688667394608761327070753331941386769, [(1853641,1,(2,[(false,0,0x4); (true,0,0x20); (true,0,0x800); (false,0,0x400000); (false,0,0x100000000000); (true,0,0x20000000000000000000000); (false,0x19f3363d5e00,0x1cb70e36a8229e63aaa6890a773180c200); (true,0x29ca9dcf6a5c8b3d793c3147f5aef7dbe0,0xf92f882d8d386db6a4f99aa49b44fa620); (false,0x625904b65a200291e3fbab8f3c5763748,0x167bf7b7e7983f195b24e806d9b74e0838); (false,0xccfb4b7f1f6bd0519eea1c27bd75dfea6,0x264e2bc5605a174fee8172e1bb61e7673a); (true,0x4a5e413a3bb1efdae85edcdef66b9081ea,0x1850c7bc42498babb5164f7f49447d6dbe); (false,0xefbb6e18496ad0cceca8f2b9b5478add6,0x1f536e8bcd8e117092fa421790b5dfb1ce); (false,0x18de467a5edda3dd2484efdb4077596f95,0xd4cccf665e65c48df89c924508efb26df); (true,0x8f72717dfa16db27d2deeae8b4122677a,0x12bfbfa426972ce8112896112b01c60968); (true,0x11d10dc48467c5a9cdd7eae1121f8209ea,0x1d237ed5ac9982eb26d4ef3a87a6fce7f6); (true,0x2b08969907a36e1dc6d36765945c913674,0x180c1560bf3350da713fad79168af61b14); (true,0x1d4f0a0abf26de53e2ab95248efce733e8,0x1609e4f9860102f4a92faad36ec057f0b8); (false,0xc4eff7d0d680aab70651c0643b04087df,0x1e240c919e37a6bc1ff4e237ac90c6871); (false,0x1705b3bd88aebc2ba71df19aead15e55,0xdea478ce44fc647b02b884834b9ca4c3c); (false,0x4e82fccf1b6a53fe2c05e69f3f9987853,0x1af74516155d5d8714caf3e26f184a928d); (true,0x24dae9d0297aa2b7dbc43cfccdc8f98aa6,0x161fa73d85a3966e9d59802a952c09d24c); (false,0xc6759791faf7f03e85171494854209b56,0x9c6379aea369f79e3e4ab8b1e628359da); (true,0x4d7972853fc269afd17cb901c64f57ab4,0x169a47e937e8d40c634b32084461c9ed54); (true,0x19e4aecd278fe9da65901e2c450481aeb5,0x71e2f26f89714047ef9eb8a40c61a7b1b); (false,0x148afeaf7e0a8b1ba3fbf6511352a0678,0x6e7c454895b7ec5d81b03adb754c8d6e1); (false,0x1355940dd1b28e5fa0be044426ec5bb4f,0x1510e07d67519fa04b81e3967cfbef0b82); (true,0x167df7beb13087dc55d64d0d7a63111a1c,0x2690bcb1d8283bb758affcc01987df882c); (true,0x4b619a3c1e13d083ce04bc8827587aabaa,0x1dad4e89b8b284aa9f638cfee9304d44d6); (false,0x1651b392cd8cd1caac0888d478855a37f9,0x11faf0090bb7e0d834d4eeefce6df515b); (false,0x831567e9655428dd2e269c182d31e08,0xc4563329026eedacb0fe33077a93e67d1); (true,0x7a1c294b5072e75aed1d439968daad2c4,0xe827c6003e55438a3e381ced94c458a3e); (true,0xaaba75294da68a33b0f1b2b3942709686,0x1d63458cbebf57772943ceacfff752d322); (false,0x15e2e28dff146e88d62de021998ad3351b,0xcdef4ac917fb8af418731266b90dc9bb9); (true,0x865734045ffd98dabc4a04f72ddd2aa05,0xe96adb0edb4461d4b86b3b84be4807b0d); (true,0xac96f13835afc6bb997bbe70bf55cc3f8,0xe19dd771ea34064951e6e07e0be2f49da); (false,0x509f8bd3c92946319c0657aa21e345476,0x1963a0a499c44197f1bc244a1df0c615ce); (true,0x20abd43e0934f922268644e3eef932a2d5,0xdc8a23bcec059c34fa68a58b0f4aaa163); (true,0x9a12386ea9a7ead47117fe3ead87c1b2b,0x230107e7633ec5e06d5efafe974408fcb7); (true,0x3e1a0f9eb8d1a155b26fa39dff4567f31e,0x10e7c91d13cf790c1f524d0f894e8484a4); (true,0xe7c2ba1bf3116df9b6786830f8a6b48dc,0x2543ca65a5b41f9e66a5f70d8e50892384); (true,0x4661f8b8cc0562c84ef381303a134459cd,0x17d2f79b1cebd71a905e04b6c07e909f83); (true,0x1cc475551770136a72b194518fba9ab755,0x1a489a0ae0773ade7f8af4f6fcf0a55b6d); (false,0x1181c09ee5947661d9779ab1a8400adc39,0x8c35fd36f2559ac66bcdefe8a27c32a0); (false,0x1f2329b75d3b308a04d45a220eeddf2,0xba0ca8eeefc40ac6876153c88d15772ee); (true,0x6da62a0bf1662fdf7913992df7716e9a7,0xf7ab789b077e04ff90a2fb37785814071); (true,0xc24f442a05e44dc18f1808f55c66b9c2b,0xa2723c0840f423910a81cf47ff33976e7); (false,0x29cbd7f7121ef6477d53848921a8dbb20,0x19f1dc2200b2d5c71dfc3a2417e3ab1751); (true,0x221de36688c26404ceb667028b3b67613e,0xf5d8786254dcbeee8fb17f866bb86ae24); (false,0x5fba98ac854b121704f8430bbec0b889b,0x15b1269448ba5d829752c6e213bfe7f4c5); (false,0xbeca69e95bead1b5a8ff44f47db115137,0x1c6a094323b8b78ebfb6b340b2e68f34f2); (true,0x28eb9af3aee531ff44de14c7b3162acf64,0x9e6fe9924005f4593209c9c9cfe363be4); (false,0x27c23ad18bdf9697cce73d0363cacef0c,0x915483b16fa440eea7838883161310b44); (false,0x2173dbf08a83ed0036b5804930bd3ddc9,0x17d852f5086e2a041b9a67f1484d17b5b7); (false,0xe68b34a3dfe9733a5d97988f7e8399f70,0x941db24fe6c6745d9f05e5117378a5261); (true,0x457ea99d7ed415ac0fbad32b6d9168ebe,0x1f66de28fe7b9d5212f7178593e32eeae4); (true,0x31fa57ca1926f92208b4ce120b55e90cdf,0xc72a4fa03b4ec1a1b5c300d24960b4551); (true,0x7da75c0276b1db7e3be6f3193349bd141,0x25736ef7244b662b3afbaca051354177f1); (false,0x238b31c1f2b8d6d673510706f6276c4268,0x14bc092dbe71e4c26f9119783fada77f9); (false,0xae51c9a3ee35d84b164ff2b520e302a,0x16b0c0cebaafe928dff2549c3862a45967); (false,0xd0c22a2f2df1848cef0472e1e9e9dc18b,0x17dcf2a115304353bd3720ac96f5ce9f36); (true,0x1cdc94b99c1658f60826dfc3b6ecf1e893,0x1d0583787105c59828a406c032e7c42f05); (false,0x15581aaf1e3fb2deb024c831c2bfaddd0e,0x16140eaff7aa315331d362ed6b515fdc2b); (false,0xc5a5c380cd3b1bdd7f8168edc5f960dec,0x1045f4e846477950e67280dffaed064a8d); (false,0x6b6049c9c66ade022137f5517c310ce73,0x16eff0917d139712b6761b1fb6a649be06); (true,0x1aaa6504b2e3da347a9148ac4565cdd592,0x1139e99bdd414531e4085e5d287847ad96); (false,0x7851f218d42ab97f751ec46f0629a56cf,0x95b7e5d5b984360a6b6fcfa146988da25); (true,0x4701ababa33a70c0ec2c8ded2a1652d57,0xe1119bfcf20e130cbe533cb9510e849eb); (true,0xa076e3cec9630c23748afa4e4e40a8913,0x195bb9d27bf266f5b6c272f4209c44032f); (false,0x104bc0b4336e23c22bbe6fd2f5e1249b0d,0x10615de2383743a5c04371adf5106f34c4); (false,0x6ccb32d78c6338be79a7cb28df6793dfd,0x1bc449790ed899e097db53ccfd89d31643); (false,0x1389d21de656d6d77fad00082699fdd6d2,0x733b5cddde51e453316ac544de232dd97); (false,0x1507fb160dbf4c2898b5cd4b66cb027ee,0x2216c92bed5ec33e94a34a0cc2b5bf5c43); (false,0x1d72e15fcd08569f393d747f67fd51db96,0x268ccc9008b96f4d4a441a5bce0d350893); (true,0x4b5235f597c085b02c42b99a57ef07342b,0x30f738256ca21352af9d76db17c0e03f7); (true,0x79856eab88e4e74764115c90bbc3047a,0x21660ef75f8b98232a0d161ddbce9f2088); (false,0x1c44a15a04c5689b12b39dd2da4ee44ccb,0x245bf5c215b5405895a8baf354f30860c5); (false,0x2180718b1a6b35ec93b5423c8690d5dfda,0x26a3a4dbf4c6cc953c0cf056c45b2db61f); (true,0x4bab95de18112456de25547651bc437dea,0xe2db790b2b236f5927980b2b1f9976ef8); (true,0xa3065bac543219e02e272c21c474509f9,0x274525aada2aed3901ec077bb7c0e91cf7); (false,0x2714a8b9d10d6cb0953fe40529e32982a5,0xc542b43a3325e86b072bd4daba1a3b75c); (true,0x7b43097d999f24006445dcf98725c5b99,0x2572882f312eaaf1c38a0879b9660da2f7); (false,0x23897bb89a2922849d315c43f65cd7a13a,0x21106ec931464c96293c9aaf8712555177); (true,0x3768d2c4cb2d5c9f792b3362d43cffa129,0xf2fef5b7fa2488d67ff0f018706901ce9); (false,0x5d85c42f4ab1ce31ebefd319d37369dbd,0x39d02541779f2c39ca4ff88f93db5d084); (true,0xa967148c80839edc0d12986a9164efcc,0x71b610fe0d55e0842af46214a1ac42394); (true,0x28f5a1d92ce1e3404f98dacd47af40530,0x1dade487e21510f716f1ab0710c85d62f0); (true,0x2ca52a62612a9f9fb6808b674d0c6e5875,0x25baa1baf56bdb2e46d6e48371e189b03b); (true,0x4825aeb73b2dedac09a81c7988b9c767c8,0x27729602f9d900cac1a0589eb36a15a6ea); (true,0x4ede9b0e34532eec0fa244960b84dc190a,0xe087300f541004edbe24602a2b364e1e); (true,0x9fb1bfe6fef952b2697eb884d145262,0x214e92de3bc20ca274acc994357ae20a86); (true,0x3839dc7d283e958cac196827689c277693,0x431d6ed0163a6741611087d5cc71efe85); (true,0xe44cf27efa148e031875603079c285a1,0x10ea8e7bfff5bc2127573ea884d8a29881); (false,0x74075d1d5e23ac1cb1caa014a9fe720a6,0x231d227e3698a6dd960b1d13c96ff209fb); (true,0x3e7deff7d8eb3163fb7e29c23b7cea65e2,0xacae4ebe91f8d97184d959603b09a6030); (false,0x2f3a917f099e5092ba4c9b094fe90c6aa,0x7781fc23fa4e4b0b3f94800debc9df3b6); (true,0x2d3de9eb0cc7b3815216a579960900efc,0xfc856ccf0ef05fc38a732e92caa91b40c); (false,0x64ff8d77762a21b2cf7c6921beea061ce,0x1594d87bf12aecaf2d05ecc897588b95e2); (true,0x179b38b1922bd1955b59e0dd8f57c57ed9,0x1cb3eb483202734897ee22ee8e0e8a309f); (true,0x29c17d28e8fbecf0170b94bce672405d1b,0x1f53d0a727b4c11b3ae701ec93eb73e8b7); (true,0x31bdc47e8de0c8eb6b891d7e54685216c4,0x251ce5420f46844edf41be58d69542ba9e); (false,0x22e7ac794eecd6c90244e673d8948176f7,0x2176541f01eacf8cb1473311c8e47f0d1d); (false,0x1c6032b2d1fed3d828ade73a8c519e98cb,0x10f739cfbef64bf609109e2e3a249101ce); (false,0x74b56a45b0663f5435b65764b0764915e,0xd06be7b2c1bc1be9e0aac910cdfb52e86); (true,0x899acd2d88b3247c4364a63acde10da32,0xadc52f985567529c0db50751165f12af6); (true,0x5fa7320f7e62614073e344d39d1c4543b,0x15593146e56dd7d111474509b4764882dd); (false,0xb8cb67a487667eb08a522a06c3cdd5e07,0x1d39b2e7d5fcb4e686e0605185dc474e52); (false,0x15a5225649f2afe06612fdf8c91257a059,0x899ce812468e1227ee8b869f84aaf525b); (true,0x3bfd018e37f58eb9f078dae59cdc659d2,0x9c3a78099588de66314b591fc4c536dc0); (false,0x26a86b6c7719284b8432e15e1bbf5fbae,0x19f5abc8a7ad271ecce53c6aa0e3c1cd72); (false,0x1113f506b8f44772043b92956070c3f8ec,0x5f7eda7674ee33dc85fa359de46b8718); (false,0xe71a2d801c3a816f2916e24685c9f9,0xb082d8cec7e6840d5b49b8b7c32228eb7); (false,0x3158e0d275954b5ebd9e989d1979f44b7,0xb21e4228076b8473b7c242ee3b10c70aa)],
[(true,0x22f669b2d58a34a1e05297a88d34c2c9b3dc7c7cbc9c004d233d38bf76a1d27111,0x525b4703daaddb7ea3e0130b028b16b47); (true,0x779799d2ab10448e32008a0c88f2e6187dade48cf3da72a82d6e7037f7a3db671,0x75f60d9de1d8cd7cc804fac36a8e02009); (false,0x160a0a1f33d830a551e70630c146f8a34,0xc3d1f92f13b0ef3a7227a7fcde9db8add); (false,0x3cbbf3a0080937c7173e178c107f1dafe,0x17f90321794db81be46dc5e7dbfdc0cbeb); (false,0xe904fc06b622290f15d18a8b8fa118e7d,0x7d13e17fe20198839fdebd6154857116c); (true,0x113d876adac44e74788f5305212ea4e361cfea75303d238c2ae64e42d087baeaac,0x26fed176b461c9c5e76f5dbf0daa05e434); (false,0x26892b5680a014e9283ff0112332bbfc19,0x242082313d4842645945302901fc9a52e7); (false,0x21133c34b45524920ceba96e3158629e54,0xd5f9a6cfce46b8f6a5ceaca88539c80dd); (true,0x3274c0f153c167aeb3e0d517c1b4aa5e45d13955e4b3599ce2572bc6d4ef587b20,0x24b88ac2277a5b59a76ca895de1431345a); (false,0x222be76ab275f7557ffa9f15776c233eda,0x15789816a4b7c545a42c57bb428638bf2a); (false,0xbaec996bac5b33dcfd93bd9125eedbdfc,0x21288772f8a3386f48e9edae2cb4c4bd28); (false,0x1bdcd9a30facb69d768214d54d303e3b0d,0x1fdcb8959eebd70600e6e1b0cb837d8863); (true,0x11e6734486f97ea6a6064da1e4efa04b496a6ab374a0a722668a7507bd6800ce770,0x9bdd9dc8f38be6a44991517cea8ff7e0a); (true,0x1ac5bd14492df09788dfa5bd94c05c3b4b22736a97e7aecb3465daae98ae75777a,0x447af87c84a67d8ee85c492b0df857f4e); (false,0x76d79156a24ac324483cf457dab3b63b,0x1c6218e70b0b38e0887213122f38e633d9); (false,0x146a603296719d9bae18d484f46ef94be4,0x18f7660b8dcdaa181ae444a3f5f0a0bbcd); (true,0xafd92f4e8ed00af53596a975c819caa7fd2990d8aa9cec989efafe92af6f786e21,0x93397410ce5c0be2bf3aa5280dcff6509); (false,0x225490576870c0089505c7863842d8de8,0x1f4707166a646bfc2b1bc9ef5de1b9de9); (false,0x18ca98a99d2e3cd11a63b163a3d72c21,0x1f28ccac7c58b1ce699976676177cfc5e0); (true,0x111e851677284c5d14b4dbc356931907c85a9de1fbdd9a98af8ff3abc2b0923a10f,0x1)])); (2480874801745591,1,(2,[(false,0,0x4); (false,0,0x10); (false,0,0x100); (true,0,0x20000); (true,0,0x800000000); (true,0,0x800000000000000000); (true,0x33e,0xfd7bddbeedc5a7172fbca23b229249ce2); (false,0x65c50fb3633b17b0c6a5b8ea8557a690a,0x233a868bf61263c810780080e304d699da); (true,0x3ee6b8d2d03fbde8473d3bb6db74f61183,0x124750a63d3432a9b6a677695e52b27395); (false,0x87784b3e89f40477d55c33bbbe5013227,0x10a3ee41313d70aa3080fd524ca76fa22); (false,0x70466a605b0e6c7c778b4fc81380f6c,0x1d354dc36c8125c36497c084fcdbbfae58); (false,0x159ea03599c782ed9559eed6400cd66760,0x141b411edbf114f9b945d0e164a2e920e0); (true,0x147d6911d6b3463bfc8ec65da0e44972c2,0x1f9a2119c7d1e8fedda1aa111f9990151e); (false,0x194f04701566da0d7be67f21cc2ed047cd,0xad97a933e7ab11b725c3c344d794d08e7); (false,0x2fba8d114685feb9d6981f35b51240db2,0x17f49c3684a6058a325eb3cb9a29dc239f); (false,0xe8af7026b99a77fe433aa39a4732e9db8,0x13e415f6ebb8d11c46b0532e7052183389); (true,0x140d925f145a0b57a6272725ff8af902a5,0x13f0e519587d7496a243e3aa5f6516ffad); (true,0x14276e632ac7d5136e3b0980a5b60fee86,0xea6d89d3bd446efa3f21890810f5462ec); (false,0x570b27efa728da7bfc54e557596b30a47,0x26489b6dc0eb015c7bd08c5dcbd18b4d9); (false,0x252454197f22484aa0ae0822fca42615,0xf8a8085bc82273da8a2d4e7bc26e3668c); (true,0xc3dc59b74dd329e34237c2155324218df,0x2164b2188a623213bfc8b214901f5fc51); (true,0x3884a5af31f189370350e725d3043940,0x1cf185cd4170bb314c559a5cd2baa6d602); (false,0x153abd236941807534d18b8ad68840d2cf,0x22ed55fa52316b0f6062d60eb0b9b9e245); (true,0x3dd4412f46ce6852b7b3279e223ec8bfdd,0x19186565d11762589d0349292157a44d85); (false,0xff5aa6ea0c54e45e7e69677a81e0b9936,0x146a503ebfb81ab79872b3b73f5fda3e83); (false,0xa8fe401a25650c1c4563bb6fa67b375ef,0x1c4e325bbcb7c336c992c1bcbfeea2c2a); (false,0x144dc966ed033446d393911773a542a6,0x2741c6f3df757982a267688b08a006cdde); (false,0x270df3e7fa5be9f0af662967fca3ab0bb6,0x1d7bf38c55a8864342aaf50b817b4ea96e); (false,0x1607b4874520b059e08c20c0d6ee9ed4e0,0x24cd66469de5acdd6f71a0628fa0018864); (true,0x44a58827f9f19e5d7559729a86c3dac420,0x119ace5388d6d3486f4096c2e2e6608800); (false,0x7daa5c224e22cfd8e428388065524a96b,0x2144f7ed28adf0c40422375939feadb1e5); (true,0x38197332c0b2e5c89e0e0de8009afec762,0x118fe72e2c7039ccb83a0245af6be29c30); (true,0xfa1dc9f049b5750b1796dceaa6e3b005e,0x26485f56976fb5a76640299c5af8779fc2); (false,0x2523df810f0acb2360991aab2734af4fad,0x1a05272e7a7c0c204d9634d79661936287); (false,0x112859dd797ade040186771a515d0cd267,0x1e8ac98ebaa797d119586ee373b759445a); (true,0x2f4763bdc3922f51797a61e8b1449a7c99,0x12e641491665d588db12239eab1cb1ff1f); (true,0x121a87c0924f1e4c6519a0e4078d98ae06,0x141c98efcd0a472d3b1514b57e5b22011c); (true,0x148025e8053c3b558395bb5b076cccc3d8,0x12b6980c5dc84c0b407c30061c632c04c8); (false,0x8dfd5f697ea73f5c8841a9fd23715e36d,0x25c053fe87f090d5a8ed4a4ebd86ee6003); (false,0x241dbcbd6eb7ab39c48bcf2934268653b7,0x73e3868d996c5ebeae9367883e3292ae2); (true,0x2a8b140c8a28bb125cb33dd58448a3f24,0xe11df49b826b4ed60d8b956cacfb1c5a4); (false,0x50443f881c43c5496a6e0449c2f895aa1,0x25bd9272fa4d864945a2e5534327e9e25f); (false,0x241876f5f1f076485646b0dfd710a321da,0x1800027709d4c730ba033275ebe0eddbc7); (true,0x1d31a3043d7b22befc2cb0b1f44604a518,0x7a4bab8e77d4c672beeb3486ecac742ca); (true,0x2f6092d82f44d48ef5c2e7a28822639ff,0x17469d653291fd75876d0347add74a5ed9); (true,0x1b7568ce6d460476036a9436cea2c771bb,0x1631cc98409f4de05d49c5ef4f22e96c77); (true,0x18f775614b8ef91931cde3413a03e35e67,0x1481b1eedc2b5ceb35d4a0276e3c5193cb); (false,0xaa823622c341b8239b2b8bfb23302b552,0x1790dbac5680480281694664adef864487); (true,0x1c25abca7e9b01589c7c0232f1f84d1820,0x18d8c2b8382c142385cc0e5dc417742442); (false,0xfa520944fca5266ab855e52b4e2e5c2cc,0x14c342dbe08d7a1f73e4cf7ddbf70d3978); (true,0x15d96b83cc18b3eadac2c10d0bbd89e347,0x2473ebd72085ab0565f0df83a433ce12c9); (false,0x21aca818f01d51b0d6b9d101472bda286c,0x15992490e3a55881967984714c0b807aa5); (true,0x17a4a039f68083a6566ba1d03c59b92073,0x77af2b41b46742c892fbde1eba7d9d70f); (true,0x2d602645e57c22cb8b57c1cede5446757,0x1fdad280b162a77e496f956da3c5bc2fb); (false,0x19b70d0c5b6b07b2d4f342146215399b,0x5e6825f1aa63e3849517fff9c7287a0ce); (false,0xe1dcea82bc6803eea8c537a38a47da79,0x1e506541bd426619e652fd6bd413649bb); (false,0x1749a47c1de6727fd452265de6034922,0x244d9ea39274927a711fa957f6f7cbbf57); (false,0x2166098bc5812c03efed9e3fb161b79200,0xf54f0b92b88bc309481c5d66154d83d91); (false,0x5f4fb0bce2609fa316e32abf3b3de6edf,0x1b0c9142cf16f9062072c59f24423ef952); (true,0x2515381d9555b9075fb636a45fe19cb3e1,0x211ce9e80a9af8a65fc99fe45a0b8fe097); (true,0x3792af868dd70e3f166b57b4aeb21f6065,0x127b9d0c7a96d2f487b081c642161eb96d); (false,0x8a83d5ed28bd5b3f9f9536da9c778b2a9,0xd38c48d452202f252fcc05305cfdca130); (false,0x46e1cb0b8aaaac24d113f92ac561b797b,0x17ec7d3646518f28ad2717b3da397ca9d5); (false,0xe811c74643ebcb1d0f229675016010e81,0x153f3480052d3c02e53e2be882c4e94aa8); (true,0x16e1525cd24a53750392780f19f3e9d7f7,0x156f2bc005d8680c0647fab21061cfbf19); (true,0x1749154e4b87091adeefde446d9779558a,0x127a3fe62a2f0bd9e6e7063cfcd1504eb8); (true,0x114decaeb4808735b5a56d4a998da92340,0xa10847ebe02781eab3a6465b2f1457140); (false,0x291265e327dad894c4e9b74d4f275a11c,0xae8a1689dbc25b225ebe720b462a54524); (false,0x3040394ec2f88d1f928ff41e89f3e70d4,0xba2256d08c5b48f18cccc97fa688a26fc); (true,0x6dbfb93af4bc596a6c417b9ec06e36536,0x7a95565961843f6f8b145ce061f6bfb8a); (false,0x17ccdbe7367feb74d5d0d21cac9d4d0ce,0xc0590adbe54ecf2d0f5d8741302a53cb6); (true,0x7532dd0d7e7b3b7c939a68e246020d905,0x43ba24970445bd4a17d5b4ab6a0b9e773); (true,0xe87bf32e9e5e7da0548a0789115272d4,0x471c8ad03544bc9714ee33ac927bb133e); (false,0x80265647d6e67b968f89767a08963bb7,0x1f444328242d4d4b36bfdb07f9147ac5dd); (false,0x18c6369ac14d3d12cb5cff3f5f28a77bfa,0x15d8695188a1a2a8d4380e80570882a12f); (true,0x182fef8931ea5d5cc581787f49633c93ea,0x16404cb5aac999321f5b1fbef0a3f516b8); (true,0x19181f8e745793a85d08a2effef950aab1,0x72617a28737c8d403660312c54f2d68bf); (true,0x29717b7995984124c109e29264e8d66bf,0xf9bd9bb0c0753d18d40a277470d4ad453); (false,0x62c94aa5603866f5af649a795837f120d,0x25e0eb10a0885b1541193f7a39b07abe0c); (false,0x245c331222334f104353fd2ea2dc5c70b6,0x12d51fd9a10a0a5e87ff7f6f1b1105787a); (false,0x8fce2890ada3449a8d989c1a6bffb49f0,0x28f0322dd9e59042c254ef1b6bd0d5134); (false,0x2a78b0c72efdcb46ddeef3cd603a7846,0x208f65b73ce0476d8918a6dce19b6579ea)],
[(false,0x1addd203f5befcc7ed7a06eb53b36eb681,0x426792171c65c5027c8ce816686c14153); (false,0x6fbf1e779e278caf71730f58876ee821,0x103c108e41da43ba7f8f9ae3485727ecb8); (false,0x6adde6f6c99e6c1f8198c736707009204,0x2646484bd1aa148b76c992baa995b69fc); (true,0x4b8c5b51d06dc0783ae3831ae993e0246a2b9b323c255db351cdfb8bcefcc425c,0x2f10d9646496c4376971a4775562efe84); (true,0x723d4670c7d8908149760bf5c38c361e9d93404adf863e4a3e7804ada73c755e1,0xce14e22299bec749b6af7bcc0d2b508af); (false,0x434421ff555fd998656139b03a2c5dcbe,0x7340b2f7309f9c5b2f9b0321c32539303); (true,0x2ad06a1116835ad8313c037d9347582a8498fbed1b3b12bf87b8228aee0e496981,0x1602f46055a7928b651c38c37a5b71d1a9); (false,0xc47403fa454496c334f6d3a6b1f0e84db,0x41e59265a6ad8a9256619352fac752106); (false,0x6e0b43a7cf028ad52b208f9243eaa608,0x262c64105eb48e04d0457b84adefb8359c); (false,0x24eda8623ea246414f7f49fd65bf944167,0x4cedd5b17264afa34f9415845cb293939); (false,0x95f998abed7ad4a9c97fb5a99970b6e4,0x1a740cc3f5645b7536b38ed61cd244e18d); (false,0x11bbd1977a8babc2dd9d8ecfbaa2b41319,0x1f81a04731205b71e1da9ca9becc074900); (true,0x33311cbab1e52344b8892f0ebe892f42cbde3247386c11949bebccabc2bae5bd99c,0x132a13b496729a212430987df74146f4a4); (false,0x94eafc88400d496d841e0881067b48754,0x1ed6112283d38bc7c5f17fc7276f26447c); (true,0x31098a0a3cfea21ec8887f3a50285dff17ef4821119466cf12e95d1a7f259582016,0x272cde5fe3adc90c96021fb9dde7d4792a); (false,0x26e465085cd7450219e9890724b72e3a10,0x21c2653f37d5f2f7f5af8ba38f03e83fd4); (true,0x3ac66893475a39c928dc2b3bf702aa8b0a34a19bdcdb6614847364529b46a1f2a14,0x2f01972f7ed7c11edaf6b2a14c1d2e64c); (true,0x71f33ff547b2814a052f4eb865657ee59024691e031afd8f23aa99840ae162815,0x1b0d0e73f0ceb2ed2334ff53e2f3c5b43b); (true,0x25bcc2186774d45e37a3df669f93996ed5be2b62e8944c34e6decebf9301c285430,0x5173e7dd39e60373277e43d17621bf7aa); (true,0x1562650394a04c79cc4b1c1ad991cc26cdc2796a00fee6ef0f7d02a2569664337b,0x1f3d1dd0ddf88eca504359a8d17486d33d); (false,0x18bae4ecef8331b5ee28b8d4a84b715a69,0x1aa438b551586fd4c6e68b76038c2e190); (true,0x249a7936052be33059dc03ca6bbec83eeb7377e1cdf11eb3e262cbbb9ec57aa15,0x12f8a0b2ba117fa2a2df207a4e44da0c9b); (false,0x91ee5cbd03f42e9d350250b60b9de6d93,0x1a75e99bb2acdafb268d97855f1a800116); (true,0x241ba7c4574903f813285eadde6f1a66ef060c850e705845db008ba3610d3f0db78,0x3985dcd01ee52de09130d3b99642c7370); (true,0xaaa45e489230af1db15793c9f321f1d60637d4de3396f69d80d9422756550d88f,0x7e6868e8487cc8d3c361e35104a42b281); (false,0x194ef96d8b810f17be46dd16ab8845737,0xe3bc2260e02cef97763d16e8eb5d545a); (true,0xa72a14b0484daf4bbf8ca84264b27dd309e001e768d7f4c8698de50053a2d079,0x1e4af55e204877ddfd1d8d7a5bae3dddf); (false,0x17414ab280f5dbfafdda660cad710756,0x7555c7fc84185940be5f4fae4b4202f8b); (true,0x2c600d1f854f707ba34585a75c5f335111d13bc8633329d3b28bb1205cdd61a373,0x12381e8f979eec63911feca206d2e118f7); (false,0x86976ad622c2da0cbb2769851d6b5feb0,0xb95da2a5aa5b77856066e849f94674a1); (false,0x366c1ec1d45f56eecdeef94548d20f2,0x2054e4a95db0ea4bb8d90b22503382692f); (true,0x35e8a44235bb286a4e72afaca795c4bd65dda7a75b1cd76988e1747eb2f958e4b0a,0xd8442748603dbd3c3c5b9f5fcb91b2880); (false,0x4a143ec33c84d9b8fedab91c7479dc0cd,0x1d86dc4f3b559f03a5b7c34ad81d385063); (true,0x2cf60d09ed368aa7b664d588ff7df0cedbb51a43800149923bc09d5d61ee1fef597,0x26dd78b652dd09d73101febe966c68aab3); (false,0x26475f3a8ef0d46d3c1daf93a216d4ede2,0x1c1345f1b8ab7d65415482d980a31a5927); (false,0x13f998e9f4d0801a80ef763bc2970d251d,0x36a34f7df08ee27b2f0f4db8cc9e56b04); (true,0x99f46950f13c7153572f81991d0fdd1ad8685960aac14bdb8e23abb8a6d004f00,0x19dd2f8757f17060a7221573fb3b2ccfa0); (false,0x10f3cce20d8aaa2f3f25f3c30745db4b02,0xa812b8c780280cbfdeb5e26b86b38d4de); (false,0x2cbdef9b4550945e2f26b7240b6d79cc9,0xd5b202ffe3988dd017b04d3c4e89b8d2b); (true,0x9330548b6bb262ec9751346f851d3bc13d197302836460e9fa0e0a5e073b8e4050,0x15f296ea2ec771460a07644b7c8d8e11ca); (true,0x18d771cc3c11cbcfc32d2f4dea9b04ef51f23763af2af14e3940d1c9477a1595de0,0xbfa449e3cae97ee0a635851869da9c188); (true,0x7660565405ec93d09fa0f2508d3118f19a739bd58d8889be49f5efd9f40d21a2ca,0x245f7d20b87bcb0ab75e8d71a73a60f716); (false,0x2186f29b1af4a477ddbd1c8fc276b9a8ce,0xcd6476e57b9d1bae8177a2c4f0e7a7436); (true,0x87f926988c713150720ce2c41caeb872d76b0886472ddb40e481361f231ed7c2e4,0x225e4a9e604858cce092f649f896c4b444); (false,0x1deeee4da367b2a59c19c891c28287bca3,0x25393e9fc0fac6b6fe6a36b4408ed5ed3d); (true,0x4774db4109f1ffa2555599849d6a144c3498e8f98ead27da9b2225a02344f8e75ac,0x22c394e5a11f1c8cf629045fef464435ce); (true,0x3e53415899502f3cc3d3445d66743de1cfa0bff0da71db075c501b1f6493081f772,0x18aab00db8ab5dc0b3fa9e669aa8c37e96); (false,0xf6b511300641714450c123afd33aefdb3,0x1bd7476ead873e1d635786b920ddb24901); (true,0x27f937099d6b298291b303382ebca74ef1328cea20abe43195f5008778c2563f419,0x13cea850eb98721b2b1a490fc83fad1e41); (true,0x143b9025a67b930cf841e7ae91bf5f964237a81a3a55e1a04ffeb3807a4c5ea5e4a,0x275ddfb32bfbeb5ddf850f43fd824c8000); (true,0x4febd927adbb5109e3167e3e9142cee21e2d27167a4a3d1917ad00289722afa790f,0x1)]))]);
  (21888242871839275222246405745257275088696311157297823662689037894645226208583, [(13427688667394608761327070753331941386769,1,(2,[(false,0,0x4); (false,0,0x10); (true,0,0x200); (true,0,0x80000); (true,0,0x8000000000); (false,0,0x40000000000000000000); (false,0,0x1000000000000000000000000000000000000000); (true,0xa948e8c4c474094,0x2e6250cad7d7bef88c52decd922a50557a9f25413f62edf88baa41fc45bad2f4); (true,0x58eb4ceb02a7b8a6505e1b1273f296940992bba121695d160ac87f89a3a9ecce,0x26e7a772de1c2779a3d7546be54be07ea44b3c3a4267a7e6cfb6df21a9da2dfe); (true,0x3e8e3fa639c9aff017e2c8d162ecd75f98ffebb372408f98b82f397fbefa3555,0x15e63b28be95212dd56c5d9797ea374676c7143e3b1882eac73972a4a670c475); (true,0x13d21caa7fd194fb48936196d792f54a6d5d28fddd3a9d47f21aed620bf11764,0x2c2666228f55234de2963cc0ddd95c5f89f14d5c7bb06a2147e3119e29db6a36); (true,0x508f5af1f35f393267ecafc69f66c48e101ae4e27806354bcf0bfff224314cc4,0xe38de6c40b89df9e07e8cf329bcfc93ba0e2db29974e57204b620d0f6f886c); (false,0x42e090d289c12a36e8c10d0e7301e863e1e2857a5e72e496e0b241922b6a1,0xe5797d8e4caad6e7d7d3d07d2815b13a9f1d2e4f34e959237c7d4f3a94129e9); (false,0x4402bc92c20079869a4114a4399a5ced1ac0ce2f30c00286e4c7c5c93790cc0,0x918a2c13228dd290d55ab92f68e29b7c634af6fdf7308a7f680ecf23c022cd1); (false,0x1b5b6fa1c87ee2a144cf473cec58c934f72bd1e0a211f6aeee8a413b7de7797,0x1fdd3b2cc8035da19bc2e0c67409e1aa7acb55d956d8ceb0eb0c7a5883151cc0); (true,0x29f674cdcbe827ebb412a417ae1d97f8054c38e11de1000a15e519346aaa85bb,0x13227daa8478cd3153cefe9aff80be09884b20c0c7a4e6718312a9dfcb6c3a23); (false,0x790eca504be8e36118f3b09c772f4dd1afe4cd4826fac31e52c63f3193d1508,0x58374e2e329c1a56d5d2b6216a9ed66add5233235026603e2fd668c4f222391); (true,0x141a0a07a54d5e472b91c0dabcafb5c1f96b5c503952ca420842a5a8c8b63b4,0x8557fc7e50b2f7827e67fb7def184cff4fd3c14d5f82a48d387251303886556); (false,0x16f6dbb670707dc7b89e7922346ec720c92889086304da519e5891ea4640de6,0x20d118063d52da363cd5cc36556c09d8e613a32ea638b178ce9f0be49298d01a); (false,0x16412d6132059d4252e4496edf6cd79d6835b6013f6e9860163ce66dc15c7a3f,0x27692a0ee9af72a1eb9e393b5917fcb3f12892a29ac16f281eb88d020c10182b); (true,0x4031704240a42104c38ec97c049b27f9f5223f69407a9d68b2c34c4bac2f34cc,0x18a5f58f3051ae65ebea24bd64ae6c67968d1e5e6b61581b0f943ccd043aedde); (false,0xc8df714d2b08fb0dfac7f121e9f795413a1bd4e426eef93f3808db56200a113,0x25a39a8ff184c535982d6e2dcc37d03dcf582e89f082c903d4df1f8abb0c593f); (false,0x1d468e6830ed33767979d65ee05c443357b0f1e0cd82487668eacbda6e8a3d85,0xa4b962a89236ed0a6815879006205be4312d4be45e92bd9dd8ce7c73b755c9e); (false,0x230b7316fdce5e4453ac25dbe74550d06a8b43e2c14113a5022f265a0dc5544,0x20545661d64e7e62510b441b7d441393057c282bde086dfc8df66f76939e17a8); (false,0x15993a2b85307df22b9e7a5a517ec487cac6daf5c5ef71818b799d244a4010b3,0x2dde9d55b3b0c615bf8c1346fb19c55494ce0c84221ac413f9fba4b91e96159b); (false,0x2b7a93af216e4ddaeae58e4a955157883fa942a7c02294147928aa106cfcc7a9,0x1b849be56cfe40a447bf4101be5847e4e274b1a9f6cd1c4d35e649624e2d66fa); (false,0xfa5ea81e3a4a162b3d5b7cef1158d328dda6f8646a6bd0cc5edf313994157de,0x1740a4f0bc1c9266003a23f66386b9b481576d1536f1c6e924240272c0d26792); (true,0x16588d40883b2843419e7bfeed869bdd37b1a9f60710595d3d816986fa05210b,0x1ebf2ea39197e08c50e7cf77f0f09eccf50af5c9494c6ae79a36a9cc7875957b); (true,0x271241a654e2119cf895e1f334e629c977a586f71d38eb03ec0bcd4888726498,0x2f5567283466d6ee8f18bf3817c1e4a46a6d468305c229d3bf69290ab4a8b40a); (true,0x5c98d8d5802a30180843e3eb875c693ba7ab1f74417c554512c53e305ce1a799,0x1f785f195a1895f020d246040bf260580d8050fbfcd4f24141f46134ac287059); (false,0x14773987bc1adc482d4faf1415ebfd14b691336124101a8c8860aa62fa6ac3b6,0x21f76161b5527d13518c77dc6de8df3691456d4770209e61f79ca61791eed977); (false,0x17d74ea68d232a792204434f0cdb95333c3680a8621db6c8ac44932463ce25d2,0x17b9adc2696c43389e642889fbe7df0268526076f075d611303db309f4b9ee13); (false,0xba1c61373729e96fadaffce96dbc74c710a16456338db4fde1b4184845727ad,0x3319f82d8e9c18e6c798631327b2739d7c69e5f1dcbe4a71709791a26af5b6e); (true,0x6becf22a2a3c7394f9a7611070d27649bea4635abbda6282bb9def389a7760,0xd72ca5c0f157a524bd9e48528cde70d99b5f9d04318a5b2e7f3712164c5cae8); (false,0x3bcc613611c7d9d60c54dce408645b5e4e4e31f1f0a28d3a6f60431ce623017,0x2019e4eff1703129da0a8c473734bada3afb9235019900db4ffa56432ffce0df); (true,0x2a96d3f0c38ac81c4484e6086862c18d82003a91674d9167410a9fa9503ec684,0x25f1619f90b3583ac40ec74240964d42f5a2252584761bec121308abe99481e6); (false,0x1dc008fe68f81f0795d0f2fbfbbecc0a6089fac5ec067a8c86a83b607e0bed92,0x2faaec65b33a9a30c60dc94143b6b9018a4e84c8f94d40f7bc275ec41e096d26); (false,0x2ef45086604540e2846310091b939ca6a74c0774d8f26112465854846f02e2a1,0x83665a20cccdb067e2f20bb5c57f12d135b2005a598ae2558b3339817369fd); (false,0x164cb42486ded1a27954f3eabe654b35e218d9c622839a45de3cdb068cae5,0x2f5f180d0858a157be5d5cc1d26a9e03d15da6b567000de3896867e62aeed86); (false,0x2e5f63a485ddaeb64c431adfab0ff712741d6829e784648e6bddac82b374bd,0x2079e5540c56c00c07727e100491b0399318bb4287945ee71934679cb8d938b9); (false,0x15cb865c660f4ed6ba890286e767b007bd09259b6deae8298030a8964ce4b57e,0x3047d67cb3c732706e164bfb06cb8b9d82ae0be88736660c290f4e7925f99bf); (true,0x6056de8bf8ec22c8d1624ab2edf7db617f5f93d963623dd29452b9356dc407,0x12eca4375a43317ff53b7b387f413f47b075a4313fc9e01641285530809f7011); (false,0x76692b081633d450eab6fbcee0400830b1c219eb06d64e336c22b85aeb19a8f,0x212595d8de47139d615a1f22e13611af4cbf7efddeb141241577ff4ae7e7b078); (true,0x2d68b29b29adb59f17d392951226b6c14e0a9f5930b4c692cfb5404d1bbf332b,0xf17e53f64278d6446b8c9c4f9db2e39da7e275fcbad319e0dec57c74bfdc093); (true,0x96a4988138b56c590fe6d4848cbf4e98b30a2976efaec406736c21813e86a42,0x2704a92c461e5464c5ea23fb62ec3399f3469c61c5eb13ebbf2b598b4c64f684); (true,0x3eebaa3f60dd976d49934554b6059532e65a262a5bd9c3e0db6408f1e0929b26,0xe2db0a9db4270633fe0b704e354607e5981cfce25832ba529f30dda669e5296); (true,0x84ef30891e9e0a0dac379bd952e023d20b7ed9443857dec765ba0c89c739edb,0x13c8d459bee1e332648d847bc746e5f2e5cfd1892a0ed58c4d304345c575620b); (true,0x102d67b562b5946bd18c4b44497f3a4dd823b37f336982386e44b1b9c1c22225,0x15b8f585b4bd8653d44d1565fa7bf67882e4a84fc979c05fadea444408b2cfaf); (true,0x13807e2ccc7980a2975c4531d177afe1a82e6702fcdfc068fbf2540ee9bafc7b,0x162907cf9f498cfd5f632f2e516eb5c9ab3bf307566ab48839d9ee641dbb5e25); (true,0x144bc02606b06468b88279b5e9ce4e4c04e19a73ec1ef42c4776f382e880071b,0x6bb70d33b9848238037fc1a649cf3747e865803c93626b66cbabd54e1bebb35); (true,0x1df86427647462c191f503a5e38512e24bdc191a5ffb38b3ada794971cdb010,0x23ac0c2a22b299eab7b6da901f48218766af5366e742cc9ca15419858c594d82); (false,0x1a4bb1bdbdb947a9d292d075eec053d28d19f7593fc4ebba8522edb784bdafe8,0x1b8da7bd094bc9971b303b7d6dc266eeaf2c684ce11df9bb042d16aef00764ac); (true,0x1f606c02b3bf2ed5ba6c6dcebfdc15a8739b49df3303da3f3490118abe9f5c61,0x11c8a45b7a5ab2b639a0edb6be75aea6cf78608f5e0aa56c1413ca3b5e832b39); (false,0x68912dc4b4a102d3fb499f5df1488d2fd1962e2ec702fb16cd0146ac9b788cc,0x1aef217c9d587e09c217c67be615112ba19f94ded46eab9f9821626668b9a61d); (false,0xefdb7dab2260ff1ed4c126ad5a524c64f5546302ca966e97143c8cecb4f0b5d,0x2d96ed571f486fd5eab3da0e4feac78640450cdae102e09ff3d7de8f97808f7e); (true,0x55e62de367701f278fb3d5b6ea5256fcc47cc216df4154c2da466c7aa5a26964,0x1a1cf9e2ef1fbb88ab6f2171bc47f847da6199e1216cf0bdc79933500638f54c); (false,0xe175889047f06c539e075b59cb505d904a1606b609652d8480f2031233fe42e,0xfc46e9eefdce7b913137688f503646be4cc92f720cb492aafc012c78ac8cfce); (false,0x5232ca93cb5b64dcc7a08e28ce93e8afe5bb3b80ddc8672ca9305e4b840d795,0xb9b7e1e0ee89f8de13044d19e1d3dcb7bae91fbdbc307a129b783301f58be71); (false,0x2c8c0108fdf6b78235929051578f9c70ff478023cf31ac891adc939e2bc71f6,0x17529293a1c31df2cee1c5f3f8bde88eeb645bd384a311d927e5828df75034a7); (true,0x167b0fe9236c8cf8c1941aea3036acf5d8ae0d4d5b27ee851ba12e221fc89350,0x16f676049d6863a7bd36bd557c74e1ecdf53425c63b1b5ec219a662f85719eb2); (false,0xae56de09203052c84ec7d799dff6881fc23e92116f98bf19612ea4dc7a85f06,0x1686a5010ff79a5ca9a3c3733992219e38d261ec9799a94aadc54c8b9300eb1a); (false,0xa7c52238e718baf391c97a9b3f067651e71f644b8a19203c9d7f875a4f6f77a,0xbb8bcace2db26d7eb18354ba2e700d4457dcf230230e868b1965aa911be89ce); (true,0x5adb275a7daa0496a594d1fc3495e53e12b3e83ed80b71824cf21b51658ea59,0x2c692d23d29fb71e81fc3c91b1e6ec8fba1f23e65987c105c6f25372ba8d4fd9); (false,0x28c1e2ad249008f5b48f98ffc172fff95acb8d0a573724cf165efc782a707f57,0x1d66df3a70fddfaf2359e3bc5b279cb73f62c67845917b9bb5cab29e58c159d0); (true,0x23ba55d25a3dd8706109768240ac6bf2c5bcea1c157aa57be79cde4f00541861,0x28fbc39d4293c06c2ce21e3ebacbd0d3c2fd884b46cc77506dbb3c2f3bddf219); (false,0x22b590e45f8a612916ab64042a98d5cd7ee8033b02f5bcc3ed59cabc44e4b06d,0x1145a7dcbbae64785e976255323c214b6d9a0ac28758b486d92847e4df889f36); (true,0xc545eb69203f8b9e3b84c17fd356a13eff67e2b3294fca4e264c0c34d8d60ea,0x170f1792bf007991fd1367a398acb89d53660993e83ec21e929414c7a4731be2); (false,0xafcda9979f59d49cea63734d0082ad48a03820db575403280d9125d7752e02c,0x2fd04f599a291901c264be432bfae413ba7bf0b10c5cced927bed4eceb3dcb50); (true,0x5e7c29bc84845c912eaf6188f38ae4baa32ffad9c7cfa44c4453b51e55af5d7e,0xac636402c62387c0d84f051ea3e1a9382324ff6ad2fd89caf051c9f1f1f7e0e); (true,0x4cc36420fd58f57dd03712ddf3abafd6f4989cd4bcf72d5ee8a219f339675db,0x82e857c017bc1d38e80876e5bf3153d6b752e1a11b6b165331d154f73a372cb); (false,0x162203a0f2f4c1c03dbcda670c1a83ca2bee03c7f5fa68f58c0f25303aa5122,0x1d02c919733b7e41ce08035ea6833257d4cd77f88791fb04fe621d427118528b); (false,0x11645afddddb731c387d0a3eaf562b24270445d24fd0c8acf3607fce241b4a9a,0x9b9e0577b37b80bd45e5898c12ae34d33e3f8311a140161e4d937993bc974c3); (false,0x1f46e297c98bb0895c331bc7914aee8015e10684d81d5625107042d9f48d5d1,0x277fb90277078715783852ff31f933ef17684c7f5c81ed1137a34eb85fb87292); (true,0x407b02028940193d8d447f301a1330b17d4e5ab404a6f43a6a117d6eef306667,0x1f6b9cb5ac6710c4062013d1454cf9087c96a46c2e622ac982f1e8c0d4c884f7); (true,0x28cd48fcaf33e202ff6a13dec2c262b502702a980a72913b8f176bb0c3770fc3,0xd33ede890da2865d3cf1f2f4ab03400e837a0944d0661884eb206a532f2368d); (true,0x7344eae1c65acfc5f91e0871dec751139aa754ae46850ae24c217434ec590de,0x1a10ab780a137be8f707e307c988095e8ed3e5741711ddb2ac2a32f2efe8ffc0); (false,0xe0a139beba4fe86cf5e00ce08d95efe23e58a84333104b62140be77dc8fde62,0x11d7eb36985ade2a9a5982d83176914c8b78a56ad869b4ed64ab32a2495a88d2); (true,0xd28a43f885d31fb3767ad9b705d0c4aabd1d90407ca4d4b83158686eb5a9988,0x29ff89cd4d981b6a0ca95ff05946e768e932b6a491a7bc74cb963e8793d39bd0); (true,0x48e60be90f19ccfb050247e7c13ec45d7b057dafe98dbcc16cd4260d86c1bc81,0xe6b8fe10e3ebfd58dd5434ad0aa4908dddd02cd951c389d66f82a8e31e84d39); (false,0x44c0a30aee3514ab32c670bf77111ea99c36bf8474e157cba39ea2bbd8a9031,0x22d666e33e0bcc6fb32319d50f9f4f62a67f39dce71d81ae0ba0a272ef0ec1a); (false,0x1914669a9a69c665eb195bb2fd14468e1a59e4a7bea27648c795565c6e9293,0x23f91b566883009c604cff56e7c06017f4a5e00d63f1e1b1ec719d56f1c604df); (false,0x1abdc83ecaba9d899d458e5618db2e584b3c12278d05ffee54d500ea700a35c7,0x1259360adf0166f940910ea75ade35fe3796e37c5a995d73cffdf30048ad2510); (true,0xdea090684cce0e25b52a9d1d66b40dd0f56fe7033857375ce7a72488945ac03,0x20a82a2d881d74fdee1cde59f9c21e9b0cf8901e67a66094e4f15efc7335962b); (false,0x1609ccf4704d435116ff5ae51b21884e0e7272526146ffde68dcfe98ccf6317e,0x1d2759937d09022916d8219cb7b6a4eaf71df16ef9ba257c00c2a003b7ab2b47); (true,0x23209ba6326a47625ef763d4a3b03d9501bcdf1caefa3bda3f77d5f0f167e872,0xd2fe243b4e6c25126b4963526cd4c4d77bb98f29c8821e7719f7b514893b9c4); (true,0x72fe520d6198e3f8f0eefd806cbf338492f37480028841b9f8362fb1484b99e,0x1dc264d26582874de52cd47f0bc5bca03d977eadaaaea9290a37c82527011b4e); (false,0x124d0ea67e4353d8a240031bf480b60c8a00d466e45a40e3b6249816f31ccf8d,0x1754fd98c27726796c4805164ad0278b3ccf1aee80bd2be280233b0c971da2a9); (false,0xb3fdcc09db789bf117cfdf5ded03fc6046e30d22fe71af4f6f75b0a4213a4cc,0x2d6a90a807dba4e2dca74e70bb84efa47c957ee68433cc551d8f6debef8402fd); (false,0x2a9fa9865a44dd83f2a6a8bec4043af039042f6a74d0a81c6722afa7291daa75,0x79ca02c00ed72247274e03e44a7c170963cf99a306ebbcf316230e779950696); (true,0x265053600169cb715a136af0650f9cae10e22a2529ec5043c858556e3397cf4,0x305f04d8d45aaa9da1a0fe9220309e118d269800cdf2166b929d1b75b1eff41c); (true,0x60b377a55c205ebb89f447fd6f7709221a39c93698a50a9bd0cc5381886a1ae2,0x2b39cd638342b0489b9b5e662bed74be3ac10e5281c92dd78895c5e372a3f772); (false,0x269c7b27984a81c99b1a5fa5f671b9de743b5e0b79bd718064b0a45350885468,0x11ea72f1145b09c42c72b4a96ff58cb6d101d897392ac8253d16a5afdebefdec); (true,0xd440706c70802931e08bee6e3d322051b3a15734a580ab9dcd2af7e0deddcfc,0x5b5fdf8ea6df9ec4a5ac59f709fbbbb62c8b6b743f2d0576c29e008d1eb4d3c); (false,0xac890cf9dcae2a558c067a9ba2fe38a1eba8b640ebaef796e2e2682e0a6ae9,0x50426ef4010865dc1da3ea1582da727787790a4ac4a1c71aabe6c776a0d3a71); (true,0x10a39efc56f9e691817cc50a3ed14f100828784bcefd599cea6463389b55fc7,0x1465a5b0fdc6c1d1ea4a8ed02cb0843375c27d6e91853244bf10111d64499091); (false,0x898ea0a5d851b8ad4ea0fb0a8449be821d0179b671110c9ead5e4f46f9448dd,0x1954ac23ccfce9757b37fe09f666c8e9bbb4e0ae1165ab68d5ed3692cb26d3d6); (true,0x1a84d14e5e6c0138fd05c9856eb8e2788f1163ecb108eb74f34f47d5b42722a7,0x2a76b516b5515528356566779d1d339d04ff72ae8607d384d6854e0698a74677); (false,0x2543049fb5eaeef6842150385cf6ff3bece8db1848aefe82fc54f680419812e2,0x2ef315df5be79474778363501e33c085a7e8281099ad49e1eb2a77250158b4a3); (false,0x2d8cde6308fea3d6b7cda144a2af006332c8766f5ca74d4636451023b2bbcd8e,0xa32af351e92705de6e7e7f0d5f111f2372579709b524d041a90751e68824767); (true,0x44c56fa6ab275fb2c7ca29f123a6b71025dca1b8986a27620d03e6b7c7899ce,0x19a7ba144c042fa02fb4ad1cf6ede3ac3449d7eef1e5713bffec87318bd158c0); (true,0x1b33d4bcfd69e5685a3e65b6dffd9b9b0d53005707b96cb9cb952f6a6a5527ca,0x2199641ebd5cb0c3b88d3fd5bedc3b1318456d7a6b30032ad263665db4c074fa); (false,0x175413e4c71819f91ff0fe341236fc2149996dac1969779c73eec13508107285,0x2f7a48e5171855af5fd8dacbab7b292e65a18a3f67b5b66334b610200e4a5041); (true,0x5d295e20f15db3065346c89be19f2b29ee705c0fcb99a563e0957fb9432be4ac,0x2374bbcfa02b9b9692a80ce87d018ff16dcd1c4556bce860e03b00734ffef94e); (true,0x33f4c8ae9ceaef1780ea7dff8e4a7503781ec2f0c43932dea2c8fab1952df15f,0x1d9d1c116a2a3fa58142ad0b54343548088d26c8940dba8658d9f009c1d4d32f); (false,0x121f4ff7dce6226d2342b6b51183006a5e0ee61bbcb0cef79e9bdbbf2327ad60,0x291b35c92f7949b63fbe0668019cc8984bb1e8e2eb3ecc8cf581d12761358d01); (false,0x22eae8d8b5751532462a727abf0ecd8aebe64ffec5ada696009a9cfc83ff2edd,0x22ec5e304f59c00d90f816fbc69b7b8feb59d49f00bb53b29992fdbd79f1b1b6); (false,0x1934110ee25281cf23b35430970b62b2fdcfc1ac77ee16dc4e3f0edf0bca0aee,0x16d57a7a5ef3fa9f350eec3de9701bf81eccbccc861a206d2f8daadd12eaef62); (true,0x158c6e4dddc827711c13df4cfaba5e17cc1a97cca69a94dd05207c3a700cfb08,0x2667ff35ba5d5df4fb11b69b2901e47d21098390c939c249c0cb4f364e6fbbd0); (false,0x1e7b2da177282a4356dc9190fecfa2266c294abed1b14446e36d437349690bdc,0x3a2df76be1ce36e97d5d9156c860c9e9b4b7f089c34cf153333b8a59cbed2fc); (false,0x45f26becc2cc159d8bee5d39a3a022a1fc73cc9292b75872b6a2fc579de9c2,0xd099ca602ff2581806e66b1458b02ea435c70b209056509761ce540b529d942); (true,0x7066a0a8124aa5c96eaf45fa948ea8051cf5e8fba4b138bae61607fe1575ab0,0x17832c31db294fd3275649b724d203bd731da745f29a0018adf4c6fe05efd338); (false,0xb6c914c08e4e5a3c75c33416fed070585ec0b9258303dfe2f7273ce4582183d,0x3f2c04aef763bc93ab0d1d0b60b4a96703020c0d5879d923bb5287032405a55); (true,0xa4eebfb453e692c2883ca902a6787d6e1eafd5d440063847c52d93d32a557f,0x14815a3abdc7f4a8a516a6d600170787c2849322c1b4adf6bd6c126e03ff8739); (true,0x1160a9c4d743ea81258fb24eb7032b5adc04af208629d9b492f13ba038363820,0x2ae88322620efcc2d986607f91096db2a15fcb0cd81c4fc908503d10a5f52482); (true,0x4c1794bac8a3d55ef9e264ff39493746dffef9084df7e43424fb2fb907282480,0x22a2a675e58c14eca6e60300717fde56d62d770a4ee2b8c900da4e7b9ddd0488); (false,0x18ca1abc1aa4261b1135c8ba5c4dfcf87a202810f48a9b1e8e8e7979b9b26cec,0x1c13cd819fa88c61b94338684a293b3ff1c587509eab4e2d2082292bea7316cc); (false,0x104a6cea84a5c6e58ac30bb412b4e6cdf398957c1bcddfbbdd8926e1b0fcfc1c,0x191ec5b529892c7dced86b9ea4ada89ef85fd55007386e55bba29bc6946e1acc); (true,0x1a146e28ef9da06c27f2e0b6e2a21964efad993ff2ea6d2fc5be369af9878a7f,0x245a4bcfb86c6a1869054d3119e4d627abebe946e2c01d7abf7110cb6e4138e7); (true,0x369e148f95177708ba7ace9197e222329affa805fc063d4334124b1aa62710cf,0x2a6716eddf521985fe794064af221678b5a7d05185b5f7e09b1c363f6f318479); (false,0x2527a0ea2a349f7707a604ac4e3e0915ce0cd2f75eab43588f091b00b4576840,0x2d5e256c06a868c6e4890a6dab5d8e3a2707ff7ff0369c37a2c8faca0399d771)],
[(false,0x2a885d37a49e0e6b8b4b7b6edf7e80fb58015898497c80c54a02ec2785784024,0x295435e7bc3ed85535fc86281580fd1f242ecc7f6144a3bf64fcc809333a1e5); (false,0x234c0273af6a4a92bf026715fcc60defef64108c8af1ba14d22f3ea3aeda9c,0x1ab7c87ffbed6b9cc280c5663d80ac4ec6523c065ce9a2f90a1e46a62e850995); (true,0x29d3cbad5ac4a3868bbc22c9c82a54c74d11b536f1f8a799c3236308c79a5e0d31b16adfd42ac3338d475eb1dfb3ffe3bd61e6ada69f04b9ec4c185c5248322,0x44c524b180770b01809ec70197894bb4664899f48cd7a2cff84362571e4883b); (true,0x1151c8bf261d6c28b264956ee0250aac2effcda0b9e4c3dc07ad197bfd820bf7a5d4851a1d21ddc23300b8453816a5e7fb883708f2ee8f0ce10fc7361116de,0x61e654b40009645227da89eb3011cd163fbfbefee7778b5b4b5e69cc85771f7); (true,0x23196b4706109475069d9ba93d1f84001e6b2ff52018be86094d1ef2bc6256429610dced215f2559e16f906c6bf654bab65f5a955c2d583ca8aaebd8254442,0x2e16d3ef57bd0cf0a8221d39cb30b3668016d59b767e476f45c5dadc454a3e73); (false,0x2be56613835dd082e23107d6ad59fb440e36802dcacaf047bf9fa5152198d6fa,0xc747b5ad5455161f81ffeb268bbfb728c28cf36bd5feed11c134e2b8c73653); (true,0x916ee0ddb336f43510941c56a85fe37c7ecd02616add9930f4e9c119995e03de592dce07ab6677d91ef27c3610c2ae0b6dabfe0dbb22253c0a1917f4a2b6,0x578befc9fb58d94ea71e35be2f6913c3b37c6b4a94ed9b85b80a3915b76555f); (true,0x1c1174211236fd81801fd729cf9ed03dc02a142c5d0ae9cf1698dff5ae57ad7f2d5f2d3108635798eb85f7ec2faac17d7a206469285a01f597546974a13aef,0x893b865883a0cd1fdf3a2170a6388c0d87d856eb2234bc909bcc10f1a9a5168); (true,0x44f7e1c87ecf58589d23d548cf2b47e46dad640708618040af5c8563b1bd2eaceb4c7cc7fee9e1b15e1b040351b9d2ba9053200f9140fe12219ae6ef3102da,0x191eb0fa3701ef3bb18b6c27e7ff4878b7615dda126276c15f7b5766b4baf9ca); (false,0xd0a218ed3edd3c4cc5c4d9c4e402daf823ff473cd3f31b65f3a7b5717cf05b4,0x1990b4ab6165e2553c73e1cf32bccf14a5eb78306b42dfbcf5ad668e27051a78); (true,0x264bd3c6553a4dab2ce84cdb2143e60ae272a9975ee8b9cb0173bbb1bcce115c35c964e93af5d49c1ad05196f9dca2085daddd14e402f2c9f0db56b30f645b9,0x19d63aa5d3293caa315dbcf548d07c2948ef62b692c6643b45750484b83bc8f1); (false,0xdcb6598c31679851c16339ee3cf06b98d6802f309ae4c1f84030062c1338dad,0x20a5cc422741f9016255baa11aa1f48d3c627c3f882e668dd2362da48cb32ee6); (true,0x3e742f061c7b2b2b681085644806608bc74fb13c7dc4c2cb5dadb4b640d87cfc8b9e3348b1f265e8db76ece1098ead961ed7de75f64b816a630009424901513,0x133c2c1aeae8f4e3afd1fb18809b85b53fb49e56b5892c143a3d45d766e97b1f); (true,0x15addbac9c437df6d1b8bd5906e3cf5814f620700d16989f95f6863639b71183be641f00b05015cdcbe8c6097839c48e4313cfbb5fc9aa60fdc57b38c32a466,0x2d7560dc23432c3d0f48a6352a304f96bc8bbb1a82595affb17e0a7209f882e7); (true,0x79156e787ad9eac4a611a7d0a438ecec14e0dcc7ec5fb288f8f382b470d30584eebcd39607f08ca8a053c0002f7b078682a942bc8896a4f258d351aee4e42e4,0x2f9e42de16529391d19d2f2dbf2f0583afcb1b6d338d8bacd251b552489ae3a5); (false,0x2edb61cb1ea9bfa4219c934716e0ea4a9217c7bd03c0285430b0edd09d7a27d1,0x1f474f49000685b1743ab6d6b7331cbbf6497b37d380a7bd81b87440757b7062); (true,0x39535b349a332c83a63b20cc764a63b7f1be461b04bda6fdbf53e671f929aa3c0671c38b53d4fc286b3fbc94a7f101fa7ed60c3146b47a74c342ee54ee0bdf6,0x16fcb13c837f51a4ff9a660212592c5970254f82d1f1bb7ca9d9628c8cc35e0a); (true,0x1ef6295f74033e722466f6c2e79a2a2f86478d77f0298595034130347fc497b2f68c5e3ad9501a43a540f78bfaaedd44f6227902c662bc429dccdfad8b71cf1,0x1c6ee8eaf58f8a4be0d058b62bf3cf2fe51cf73aea37f60276abede5d8decc4d); (true,0x2f5eda213131e70501b8a6906b339c334a80b59adf9a317d56748c9f311e019122db8e877ef5b15c34e60aed5e4c9a98158fd97980c73f85297c0c7b07a7d82,0x16f508fdf04b93c4487ab846b16eaa6cc9e171c944d765ab5a1aa63f2213970b); (true,0x1ee18c4171e5806f00cb22d1bcd8483c06992ce168ba3f1fcb464b6b26696e82be3c915c4726337908698c511366eefa5e9a4936f9bed68dbdcd85ac64009cf,0x1ffeb267faee275bbff119608ef8659f90dd94a38a920ec478d96f3dafb1e300); (false,0x152763f0d95f3ffe57d25ea2d3a65b5df7ba3626ff0f5d0095e9c944c04282ac,0x2f508c727dc8fd2781f6d0075e32fca14acfc69c9e6c5281a24290a23662c64c); (true,0x832c725159d5bf25c39a1324781c42b4a2694a6774e8c9aae12aca92fe857f2960884520231c7642883a70f1e4bbad03ebac3205ee89db239e46c8cb1a4da75,0x1708484238e1681cc47be8ca82654f04ee7eaf8e4b0dd49d919d522981ab3e1d); (true,0x1f1569e0de9cf0a87bfe4434b908e2d748a992809de011b00d711b5905895c577e45af07afd978ce9261d4d12f4d28220af6727c5a2b181859b0bdce25a5777,0x6f06a6caac839b60df119d362b4f64bd0074513508ff722b2fa6872d42b3138); (false,0xfeba74e67ac109e1ca535b2a8b6a55351b91e8337739cbff73f0e3f47a8623,0xa270a34099e607f76b1d4293375caaa5ead379caa24c1ce507f574fecc6b18b); (false,0x22145dedfdc32e31b5e97e2c40da75bcfb5875c1b7e56b22f8cbc60095b6427,0x16e126cb8589313d5bd47bdc170bfb4bfd4f7b20a698b26d141a435810ee2fa8); (false,0xad13e11d564f6e842bf25efe6a6ec506548d81c60aebc9420ed8b01e5e17124,0x2dacb937b8bd43af526f0760ac399ef00e3fecec2a9abaabcd0def99e9782944); (true,0x7a3cf7e4fe1ff67be55c2466984a890c1b89b9cb02c95e9cd44ac0a680c280e2d92a904bcc3b1ff30f1b37d02c8188405e69ac39e713dcdf361e2288573c2cb,0x296a970baabfea5f149c0057b343945e5e19d4fcf85c47b523ce1012a3280bc3); (false,0x237246b9b1b47ce12078a72f0af754db22b2370e80b37f4697f5fda24977b683,0x9dafe4f65b6eb677469439a4d541dce37d00623d3d2c13a44f566cf60734134); (false,0x201d4bb6232fe589617cb75f6f25827bbd4b231dfaadb9e2e23f0d0ca7a1ff6,0x1ad23216bd7887c40a3655b69a6bcc00b522f05af9ec44aa6c8eff9cc0b67756); (true,0x2a26a750d878ffd8601c4e28c682f1f3e91a222d7df4ca5b03cb7e4fe258b8e4aa3da90e81ed48c8f9228c92d9e85c528b5e809251f64fdd5190967fabed13b,0x1f441ae7eabbc3f55f8ba776efa917a41126552eed845a6cce718b31bd0c9a47); (true,0x39479cb7284d64693e5e4d56992f96c07f0423abc0084a5e13546551ac205b8b2ba4462a8d19a63d07ff8c370522d3e24a6faaa2b00d1a32e5f3267528f89e6,0xfc22363657b67ddb1eb11640e0240f29d3d4c1fc6f74d6486f1551449d07757); (false,0x521ae193ac470035e0960fcc337ce4341f5b1d1c764eecced29b505e07338bb,0x24ce8e129bdc1d8e30f6e744c23db2afab397f0b1b3bcfecf7e9e237616874b4); (true,0x4f615c0b556b0f354e3b62991960ade11a880241e335bc6256e070a8fe0ffedb0374a5d73a79d7ba01654bc44cf4cad69060656eef95ee28b9228c8b30c8e1f,0xdfd6e96545390a5459aba17cd48e33b9385739675b76b4bd1fc6391b04fdff7); (false,0x40b6251da350f0e470bcde36ea610538db0b7575546ccc2d515c5ef06ba245e,0x245b0eccaadd4dc115422dd6a17258848e30d6701d25ecfd18acb4cfdd49443f); (false,0x1b502f3fb22a4769ceb9a076ef0ccd31cc80b86fdbf5f4e45f7b7d7bc5926934,0x2053c8d26b6c6b51421d3c4b9170e36e0ecfe94a2e55970f08dcb4f2715bf615); (true,0x3d3bf206b721e0c2069db3b31713b2dee877cb446a1fa22103ccb3f3096aab4da1b08171ca74fbe4dfa9da7ea2b538b86335e599ac31cf593b769793fe392bc,0x15bc44fc8c9203002774b12536ac4322d0c6b15ef36434b97ba35bce2f193f85); (false,0x9c3382586ea630d7fd1a629bdf46264b4819048795bb00d9a4c37c8a09eb1c8,0x98bb67afdb220e450e0dd7afc27ed5cec95b5a43e0079f95efdf66c0f26c4a1); (true,0x556d578a066664f0e7007641196b9fa02ae3d5c85b4d753e62043583a17f3926178a58a9edca172f04a77013a5b0e0b2f64274aec791e0c1faf8ee9a5ec1f9,0x2c935a990e2d96d29726ce5d978f3ec68502658d8d979b371e12b3bb229e6fa2); (true,0x746d0af0815e47c9854a6131c1c707e10de388ae0e06ed6ffe845aec37fae469699ae8bec5ee137320b9caac2048ad62a6a252c9f717ebffe332087e557c815,0x2b2a4cdf959250cdf4c459a24aff6bccecb04c72d7b865429ba054314d189971); (true,0x6d2cd34b8f094c82eb4b0c8f718477fd9e2308e0e15a7a650d232bd68867d36f2d3ef5a36e0ef318bf69650fac336594eaf597758a48fe13f8eaa33be102d32,0x1bf301a84ce296ccb9695ab2327bb004070e661f6832119e9c0e436a3ae1fa73); (true,0x2dc583748d3668e73c19a07f82a1c94af4c0f4020ca30f010234e3f5d47cb88f9ce11254f1cd03f43106ce550ae511b069a808dcedfd1b09d16d77515d2cfb1,0x214f27e41cb8e651afb0d679767a61ddabafcbad5b6f31342e7e476a6d81182); (true,0x4102b356f2d37cd30c2d6d0337da2e5aec03f60230dfbe3e57558512752ce0e15c8381820c4789b3c5b560c59f33d90ab2f475b898236ead53b48babf3fc4,0xa1be5ec0b5fdf7c46177903eb4b2ae9a9f9a723b69753e5864a175a479f2068); (true,0x5fce2b915dc9b82dea43dbb300830ac9617f644099f07c0c4ea0be115043a60c64b7b5b0969d2f9a3f6717d487aea345d41c7faf243a6375501ba1a3b7b140,0x1cdd9be1f72ab4b79d856fc2944267db59279de1959b6ecf381efcf8c259fd80); (false,0x1137e46a74e1399b3c6ae93738cd417a9eab5452d90e3f77870dd1e976a041fb,0x3007753056ea78753e1a1346e398abe17cb131e6d514433e074b1cfe38cae463); (true,0x872a497f9a25fa24901940b8dcef144a0933d8e81cf53adaae1de15470e0dc3267af13c9a25621f21bd7af6767b69ec0e94577969a46456c50bd67d00c357a7,0x19ed8a032139f6ad7d6f8a689f7857583963aba8c9abe6f67ae7427fc872b2e8); (false,0xde454e28cf5143be4225eac3c7efea24681cde6abd118bc07d9fac0b79d2ebe,0x2895d8a5299d31fdf7bc664f9bc19612ffad534f39551b3cda54104e1bd5b58e); (true,0x6083c67c7e17e0666406f2a14da9163a9114b79b549ca33fc711fb2e1d6de9a412996df7e2679a8ac5a107ba3e476c01bc37c84d5c96103c196e79129829c77,0x2328ef14819a4473fb414d6c516b77495a27e8382125336821294b6843596c83); (false,0x198bc7f0338469221b88bae6c58c3c64498e5f6e6096a0e7772a65e5bb4ce52d,0x8832f0448bc34ceb0e6f4fba8cdfa78f62c7ee5703dd0393b94a52c4877c28e); (false,0x17f5523b3838328f3ccf46d21b3b6ecf284f124d0cadaade861358a0f26da81,0x24fb3ae4717a528cbdb398d24a35e0ee27c82f3f9373280abd2cc5be0bab6ffd); (false,0x1c42ec5223996ef237846a0f2d6e50ab8e7a79569fb6d56d50ba9fa5d229fbac,0x2dacf32e9ccb4604556bae2971dd832506f284f93565cbf6269bad2bc4d9755); (true,0x7a3e2e27bac98b722090d50520d13618bf03a74381ae3912fee7144d8b60e1a19e72bd1057e4feba2cafe5d456359c0f519ea21988c6c9bb75a4e306144f7,0x1e0e715895765fd5b365b61dd7e8b05660820153c507742774271cf039afea8); (false,0x12ab0f25068f4467e1914e219cb202f3a4888d0d10b63d88bd71740fbc32f8,0x1273da01ecdc1dd96587ec9c039f45b8285e2321b8935e8b5bf08d4803c09378); (false,0x70946f62dcacad8e65f6c3483b2ff44900b5b0081c522a439b02478720f8a71,0x1022fe319eb8728bb23944076e7951601e11f9be6d38d49e9a2e03a4f415f5e9); (false,0x561845a096a3b10a645672373bea97ddfa220178c442c9d7153a3d1a6737ded,0xd0db914636347d6280d0b3feaca28be8938050cefde7770c6db45fa282aa856); (true,0x9fbf92060e6bcfa4b18f0cf356c3b12962f72ed2c9c3c8d898ab261e6151801228e8f1a681005e22fefdf37073f4d13b584c2555259b22b336a81b724ca28d,0x15a880be001aa2988fddf76bcbbb137c7f9c9cfdd5886439e7b10cdca94cae89); (false,0x9b17e8d83e64c61f743e624b2698d8f06e799d6e50c60e9ebc62c7ed0e4ba44,0x2ff7a7d39f7d35bccc01626ee9d429687dc896175bc810d725ee1f7765e1a875); (true,0x86d166f19f9dfb3fa5d11433d465a10547f37c8d1e19b6d9c701c240e2d0f3ad7539aff65e00a6e8c6fef5f1b5df9cd9b57b28d6f0f2fe779ade84a3a8d8161,0x21ce90fdb33a8b7bda582ba52f657b0b430285937357da07478c43baba3c0a82); (true,0x42f7c20818257dcbc9dd256a8a169daf77b4e57e8b84d7faf02cae555a5fcc2cb3cae9be24066eabd72edceb56ba30e0ea69396c98be529b4043676eaebfb57,0x2c7bb05ae8427c527239d8aca31a0c5d7d0c6bef97d37fd7728ea0155d1e77a3); (true,0x73f18cfeb7bec1e46a15c46bb5c22d80d74a1df1da6ba88968f08349ee82632ef6007e0ad4aca8f39c1c4086627d97562a221eaae9bec2139fc5b58ba8c191a,0x8ed92393ec94907dfb7023d06f1fac3daac5ffa6ea3c733e741255d9db5e083); (false,0x1a5acba6eb6cfc24df7c6899891be7a7095cc4759142b586d4acf0dd9eb976d,0x24301a549dec8fc552850f8752257fe604098aab4da3ecbcb31681515659cace); (true,0x4cbba5cf4f0d5310a63bcd41f4880a8174129959e41c2b95c6f8cb1c98bed320a3d0e27cc8938842731e9fd48536631ac2b49618a2bc407e1c5e3d79e2c45bf,0x1d377961b2da7bffb790e648575b7ffacd495e0c3255dc479d3fb72c5933448b); (false,0x11a3c0ccc4b7938d640aba202f464ec936fd518f62f73d8d86192feafd544eab,0xf41306cd954606535f9d6c580f0fb8ae0cf55cdd8a5b150f48f554410c7530c); (false,0x4cf0a46054ca2cd9793a461e67525d729a75f109d5dff6dc1c11b5ef68b5bff,0x1ff0a1836044a167b17f0877baeedc48cd50008bc609bbc14ec1cdebe58341d7); (false,0x1514ce78894a7595c5cecfd2971b61ad60ddc0173c6d3338d8d28e47d4383eb9,0x13c94c6983e4f6517e8455633ed8328903b42f3bf3434438bd400b192dc6a842); (false,0x8171607da2376ab61f06c55eacee0b7e6e3305d2c4fd07f33d98f30168cef4d,0x9639379ba9eb61a09ec6de04b9bc10e25e50d010938d5c355ac3ac97dcd39a9); (false,0x1d2575a45c36ee0c69e01dbb6cef2122401261925a608d8b39cc8e2ba283407,0xa27ab2d87d78a0807be7a80ed6036fa60112128f86f49b3fe9f0161f7b158a0); (false,0x221896c4a7a347fda83cdb6fcfdb0ff7de41e867e7742014a78914f17577675,0xb6ab0ed2f07b6fe2c55a6a4961a5c12d2870a95c84798ad9f8561c169eee88d); (true,0x7a327bc04037072e04d83e8003f996c4c5d8cd57cbc44dac0764fceaa945727d247fb5a6f788b9278200b4adae85c4210a451251a672fc873711658309a446,0x147398152157ec08e37e8f834e3e6d0a8cb3a4c90051ad5b1a04930dedd9092f); (false,0x8a4afe2d22f214583669d713f2e365f28e990d3286cffc491da53d567d5b12b,0x18262e81a32ce83cc65c002f4e4547e3b6a2cfa16a4d05c83507fd4982d2b4b4); (true,0x222bcd374be336537e3e72fbd0711c75f71df9fb4282ae03c21d56ae1355cc32e58475465a3f8729790154302eb7716d4124ae4fe0385dc2c34967a637b6997,0x1b99e9e069b82fc706f4c9c5e933109aa07a3825bfb7c66473a2749b405569af); (false,0xfbe2eb28912ed0f3b232428585bd79ae08548f0b1713b7829de7685fa2b613d,0x2c8b860f6beeb911d6e115f939885974805ffbb7603cad9fc2849d8f0729c4b6); (true,0x74442752f7a7ced0df0143d76425ba154907e3de51e1989da4173b07f637c826f8c60145478f66a8356507a8f464c6822a1b30132e10952ac6de81317213dab,0x2a49f546ed90b33f59ccd8c93db333804907ae56d8ab7f33161face97419afb7); (false,0x24f4a51d16d6f9587cb4aebb88b342496fa5f491cab81953412ffedd87a69fd4,0x1e40879047e2421183c183eb35b103d83074a92b9677e728beac76a70c7edd05); (false,0x12e97ae159123354a55eb5d39bac69fb704d0572137aa71c483642d1d0884bd1,0x474d3bb2e5f1496f904c5e83a1e2b238d48229533ed64c5b4a266e22dc70e22); (false,0x690ec26dea410e7f5d4b8ff1e233a2a801272a085ba3034ea17e7da9ef46d8,0x3cbfb98f4598dd6aa9affb57cfee465a208255ba3efda68894f1bec2a39e9c); (true,0xd83cff65c87a9184e36f4e9fccef4b5f13f1b5086511ab8051ed2d3300f9278ec30dc99b859daab15776b13de076e758f062b434a3c8bfe3bf761d67056,0x192211fe10f0dc1ee2f9a1ba52da68b609336b2c07376ae2478878bc78c5d036); (true,0x25032b78207d9ff7ff74dd289d8094b754080847e8d1e59b36ed7e90a8ebd8192b467829624e9f19a3dd7cc667c7cc0fc73c0dddc087163ea2d10024d312c33,0x29cd6c014671c247764da3dd1e5b752b0cdea6aae7cde0f2fff12f47b7ac19ff); (false,0x241c3c76118ebaed1074128e320c348b0f50ff817ef4ba366e3d4aa867853ec6,0x2d20502e3be6eac7236e7f46b9c8272f76e02495e6ee733c1fad2cc6a665b517); (false,0x2a14bc1e76bc1bba9d446be41c30e3e357e731e5d159dfe86d59e7ae1fbaae6f,0x1a6af7fe33ba93c4f445faa3cc056555b50962676c9dd338267f2d0bc7517448); (true,0x28e4a32d9a641ece02ee48be8fc7c157cd1ad5701030fcb37341dce98f0d7d7a42774596e56833c2b28303c3db6c5891efc2b437a16bf5122a3d03c0a127fc1,0x131e2d719f86332178a9a7342124e97f612af9090f2562233a7aa1525018c4b9); (false,0x78d83c856f4e2f208af4e9ccd417b541df40def428d7704fa896ab62f8c4a9d,0x2354f0bf321e4115b9539139e6f1e2d6c087862a6d14cccf4345e3f1a829f326); (true,0x492537210cf0c18e87278f53b93fb38a625e535b093b0e7e7edafe5e3865af6c659afb4d773287eaa559476d0890e80827ec9d2ad07774b357455bbbd82eed2,0x172c82736d0b9e43a33f84d5b9419a53522d7ada4c48ed65d89e078d1fce5726); (false,0xb18f57c9cc7687bc0e9c629ea3fbee40367693d1e33c2a9d9098e8fcb25a0d2,0x11959dd106ddf004ae516be9dac56fb165d481accad33041a8e43daaf5bbb566); (true,0x121e3b28b650bc9d26327cad76707962751597b2f3b439a9734acac62b5248fd3fd44a758e0a9fe7061ad090a393ce3d5b00e718d30289b42e06a910de4ff0b,0x100d071119d46758e84651a88054b7c5fbb8db56ae71229f7b1fc225630e8d57); (false,0x552e8281b7f4f1c92c6731bcbaadc98d206dbf53d759c8bf58e2b52493f392f,0xd8f7892117685dc5de441cf2b0e53d96921a2c3298a6dc69e57322be6bca488); (true,0xac64e643267b1955d19c20a6aac7db8698703bca15577262a3f33fee7b9523169fd6d0dfda50c47b1c4e5202fc08e8b7a6908dedf23960ffd0c61d1aa03096,0x21b589c73f457afc094ac3c58b961a293cf1b86a60d0875842ee8154c06e2ca6); (false,0x177b3a436dd002d0397bfbb722dcf1bd93bd2f966a2f770935cabf3902cb5cb1,0x26390d09f511201e92e95478a651b122de634a5d9a0553aaf41ff6d467b3d98d); (true,0x559b01602d75f2d934375e4bc5d8ee26d65cf10da55592e9943634b4cb486dd36743368c42ffcbf7d2b21f63ac5b12a218a1a3bb282739d2c44ceeef35da6f1,0x1339bb2499fd19e9a974c54e0341f5fb9a623b2ba2b08b6719aa9bddf94326c2); (false,0x7a358cce780f805256870dd3b673f9d90e92e2a95a41ad841e666b9cc7e2100,0x2b41b0cc692fa09914e4f593b3859897c72b60e5223b597ed1631e6659d20404); (false,0x26aa941956a1022c123b9cc63e5fc559b722edb7e13646785c6aca5088557baf,0x10bc69b89666dbaaee9ccf4944aa0a52ab450f3e7a1131378071a46582eadf87); (false,0x5c9bc4f768f693ce00d0bd6a15addb932e708071c7349ad888d8a699f3578a8,0x3026d69922c0f06b7bab4af71dc0411680796ad10f46c8cf87bc7b415085fa99); (false,0x2fe9acd35a78fdd99d04011dd53164d5aa212fa7dda59a915c29a6f79083afbc,0x8959301bcddf5b63def08d1e914061b3f8617cefe5b9e9a388f4bbd0006a64d); (false,0x185d475ed62d4c662296619b0673553e67c973fc01d84ac129a93456c2fc5d4,0x5c706095f21f3095bd52359e0a3695e364b41b335647be6bd2a916b4d31915d); (true,0x1f4afa8ec1de78fd91ffbaf72f139ede9f174c40de06e936f4d91d8f4c21e90354893415d1ec7a10000ff4d546b3118cd15221af6fa610e230ff15254c9eeb,0x25b638529b7c5f057d3e14a300d885e7e2354d1d897ccc7a85da1910010f208c); (true,0x5354e4f82fd059df621eea4a5128596fa72151e95e58322e7acf3e7a96315c98e3917b51baea1fe773ef488a429bdf58b1e99f23c79c0a61c02a0186b8a181b,0x1e98c4f292e69a290c127a73bd92c2f1485db15ae111446adebb1316a65d13); (true,0x36da8d9644cf30533d79766976a2c8258fc6d71f9e7d1b1674dad863bb3bafcedb28041812e0d6f9ad0138ed15a070fa4c2568fe7c70991f06b8383fb2d,0x43dd01ffe873881ef2cd60b1601d9e99f29bd7af3de23addd4add807a8599de); (true,0x10dda157da31fb302498d421010416443c71eb7cf465e54c64abc912d0f44632cf6a28151c832fe1b73239c515f77a16f6376a0a630e1e9db4823d740266c0,0x14f26b0b83783cee546bbfe24f16e14cda61171997b597d272b23e9234e43304); (false,0x9112ee3eb5499d71a66cb02f2f3f193a8bcf0f384c435427cc4258e81b0b918,0x1e3a7fe59efca861a08dabac47db7d13bc683e2415d54427fa1c6a2d02ba8a68); (true,0x358a930e539569d1c9eec7bb6dce4104e16a8aba562e8c54876904e78e01fb6668a21532ba2895b1e99310f1ba611257bb5e6e7bce31c41d430fd0c012d8173,0xd6d713f5b6462d6c8c17478706306e19fe8a9c4aef8beb3e6600cd2a72ef85b); (false,0x3b9cdb24fef202f4260d2f7db23cd4cc8a9b0030c8004af7399a1cb7877e3e5,0x328999a3745b2612f7dad8fa3e292c0378467ddcfbdbc07e182046a6b3eead6); (true,0x95a6f194f7dd058355e5a28ab13568f7eb2865340ab3c88ad0ef4543091911b22d3ec965338c908784c8dbab0f37ef1d7290be41873642574932181a3aea5,0x11e6691f495fcf548ba601346c9c60a11d202edd78436d6cdbd3dc959469a9e1); (true,0x12c637a56a998abdb5c6b4aff9066575bb8b3652eb6694059b112e66a5ed48fc1bb5a5d2350e89cc1f31f375c8e200a525a378a9606d3f4fbf41f0332511aae,0x1e56cba97ce1f0458b2d73ee811b0eb93ed03629c4d969cbcfc9d8f44b52f6ef); (false,0x13055bf095a551d3c41a4d8f4b9dd9142b08aa42805631d34ddf563c6207f8a9,0x2c7d2d7ddaccf626fae81ec9a913285b4bb5f5bded569d3a6f6527590e7b3742); (false,0x28e6a130b20f01f0d927a690c497b70250471984c618138d3dcd8df1b3ad934e,0x1e7552b87f3f7c71238892d053d5264f7c70e3903263f1a56a373390d3d97c62); (true,0x365bbebde9d990802439c85360c5d72f4d23fc4805e4dda9c148384e0d1cd54f930ecef0c78132750145721e1f74b2d649d8485973dfd0115daf27f74667302,0x262d6170185f977b1aeb8e14554ea8a452aa8e844c5bc9abd3b780488d77bb6); (true,0x5566c30bc7c3468fa4bd7c06be752e88703122f12ef43e988896bef6811cab1ddb17e6c907824edc87984ba27d671d79b0465b180607e15b2265ce25304fc,0x2868ca70e801c6071f136b6a99127baca4a7c12a68a69727d4f8226810d04f40); (false,0x21be5d1a0722297441d7d67f1b61a82f65f864ae38177d3d6858eeb0402604fe,0x131e77c54371a4c7c11f6adb1c5f43bc38cf1a01f6bf0a73ed9b38acc806278e); (true,0x156b1a3aab8bb0561c79b39b1f853fc22d41e626dff273d9550502dcd2a35d6af579b9bb457014c06701bf1c828450bd6937f75c456a23f9f59dbff15125d58,0x8fdce4280602f00d412cc2b1d146dbfd596d7c0271224a99bd8265fbc33891c); (true,0x4bcb2bb819bc0a65c39d8513bf830fd3287fd7383b2993efa43b75ccce7653207bacbb7c8f999ddc6f1868889d11f4a8c17cefe6aee2b4498715bc387fe536,0x1b6be5860ed5d328fd908c0d349b8eab51b2ec77a904673fd6e589290ee85216); (false,0xf89dc2536f8803798009bbd1587bfa7721dc4ea74e7bed59ab8a6d1abeebdf1,0x2074b7e7780a121d32a4ac15b54b90c323464a3dffb828c16547c12c50883f0d); (true,0x3db8f5cc9db340ce710a476fa8a2f28ae7e96e69a7b10d55162b781f27dceaafe0a1214121fd88c78dee3a8f0f49236168cd73996a68116b2c77038a9fb3dd2,0x278964d0939c30277722002643f36f64ef1037bbf8fbe1880215e0a2e4e905b); (true,0x5b97791c76e15c73b865d9d58065b107c99ba4284272f673bfe4da5278eb41b2e381414618ebea49fb426e05b3df3f295ec403af121f825c62cc7c492cec7,0x6b36ad0e29d1d42b2ce78148a0a0e7da4c17757a88cd049807f5d5a32f86218); (false,0xed88f59ae36ca439b1de17469b44d8a66a406e2ad1ee47cbf44100e3bc06db,0x416bc86ff613f7e1e5a36f559777bde3268169fdd93730de50728317e160c83); (false,0x58715eceb3103e86a91669d2ac1bf3e67c16279f51bf1cfd52f7a3084f695d,0x5f4c63a0ed0160cfb1b5faf9a5275b5fbe04b741760f1f094d1b193d0ed693e); (true,0x214240a08a19aeeb1cd6c0a2f251aaf78b59a4ee5ac21809e1edd90b300f5482fbc06d948f4698843415b7fe3b5f84b06ddd13ff45c699ef537e0108c335ed,0x24685a5fa16ff9f5128eb604c4fbced8aed674cd12a5a772651b008fbd8feb09); (true,0x4daaeb0bd2766c5ca28a4801bcb69f56da06baad4cb901f23c28e33a7bf63b7309977a4bbacc91fe4126100eda8622ce62580489d94083c5a191b9dfc476785,0x288b115bcc4ae63fc2f3a56074a230a8c9e98b0bd92d08e1b0cae24599d129de); (false,0x21f7b4477e34e6c8a73c6f915c4fd048026d08e74b26eaf1d85698806bc3dc3d,0x2a94c2dfb7da97e21a6677cf68c28604e40b7e0dee449a3ae6ad448e25ce7e99); (true,0x6a3d811930588dfd90e325c4cf3288d1a1e92e8bca45587efa7a4032fba73ef6029ab6635c8e20f206e1d5098ab7c6287d9486b1ec6c837f609e99cb308d622,0x230853cdeb942c1530ffe5295bd1be4d2db9b1065362086c7ffe300f28b12273); (false,0x195c7c3312510016f4179fc1f5bba487c13aa214082f674ecf7295dd9ecb5ac7,0x161b90fc3ee9763fb76aef92b9856ccbbec5ed98237c20db7a224836b427e778); (true,0x1ca34fe99bd54ca88d721e80ef0db526e37ccf736a490cdffc05d6d59789eda213ea0ee7d25c0dbdf4c06a2b76dcd9c16139c5b8d9a6025759e60a71ca55cbc,0x296208ba66ba3efcb6614c123350221925f66e8c689621f21aa3d134f2fca01c); (false,0x2363a30d1deeb6564fcf242b70f0d60bf5cf7d24d1b473bfe9b09e314cef840e,0x23a836009cf77b6e9c7023c07f0d0821ea89bcb2e7b418c0b6ae6607b88b8d2e); (true,0x4a7f952ce96de78e5a18363fc87777fb59c0f277d4b13fdd6548f4d4ae45bb902bb9904c5ca75dca28b0cc66463117d6a72b4130bc72683c32b7725a55d28f1,0x7020a5c811349af632b1849fb8a4d35b28165440c5df391d521ac6da6af262d); (false,0x103ced9a19727e6ba7b49a4b5192f902e4d96de6915185cf289dc8d0c1e8982,0x1835ef5232e2eedba84f6b30a68795214540b9ac4d2224deb2c27b94bde1c6db); (true,0x225870a43a1d1f144377af294719fa248fdc436c28e06894ba7134cd19709ff4ba29fb800423538ec6b9e4527a27f216462616c0a84e568439e2b92525b8fbf,0x13e2cdf294a21a55951c00235d513cfda07fd3b9c5d845e76b3ff402e5815450); (false,0x82bff0876b601ab4266a26111c7bea88205bd1700ba1a28e367d9dfb58e7b3e,0x7d192e2162ac6b1e62c9fbda9fa4a4acec091be6ce27b76d8ce47a0080c24ce); (false,0x14364bb140589f85da5e00e99722005ff53c04def9ed4cb05f03b86b37e9555,0x1d360f55a5f6db58ce9ce1f0c459b1fa51a4b28865930bebdd0f560269be2a31); (false,0x11a20baad9013fbeb38abd1099bb8ca4c8cbcf21416773da2784be8a6637035e,0xba5dc5ed387fa57c5407c0a85b449337fda0493c444624d9903e1ab3092484f); (false,0x2cdbb9945598b495d87d336429067b17f47f6fa69ecdcae6e5c81d8498e81b4,0x2efdeb4b55901adcf4116bb7a9dccf51ae6343036c69bc431d1c6ea13ea3ab75); (true,0x8163d9b6de46478220a7a8e6321e3fab5e2f2dd44664075e0bcefb3a84a79db67c8d2fbafeba3d5e01bd2188fa48fab24860b24adf3b847ab4e3fdfe13d74f4,0x94bc2d5108d6090b8eee4dbc25d83ffce4dcf82c9f73aed7bdee0b4e94813bd); (false,0x1c92555971cc1339dff6447a08a5d710c93096bb1ac24fa4869562464ad839c,0x1cd39cc16a0dbd63b15ff22064ad51f4e0e6a1455d1671afb1f823ea5f14ed45); (false,0x112bf972e26355f63e7e84d9ba59dd8b50d752265783a28aa956b1f44a94fe50,0x13bc9174e9379c4dda44ec3c66f60eef8fe981d92087c5866a15efde87493c69); (false,0x80cb05a6668c89531598d64ec71f4864361b0fba80814479c5a983824a8438b,0x14df4016af6104657e5510dbc6977fe682bcd43693d2b1025613e689cb644884); (true,0x1986b63f2f88cf0affea256b23b1ca1a8dee787e6ece5d4bfefa20ce5777da004cd91e6dc0c2639da99a244098d27033b6f4f69623178a48644497af54617f9,0x1)]))])
].

Definition q_mod : Z := 21888242871839275222246405745257275088696311157297823662689037894645226208583.
Definition r_mod : Z := 21888242871839275222246405745257275088548364400416034343698204186575808495617.

Lemma bn_certs_ok : check_certs [2] bn_certs = true.
Proof. vm_compute. reflexivity. Qed.

Lemma in_bn_certs_prime c : In c bn_certs -> prime (fst c).
Proof.
  apply (check_certs_prime bn_certs [2]); [|exact bn_certs_ok].
  intros x [<-|[]]. exact prime_2.
Qed.

Lemma in_certs_by_eqb n : existsb (fun c => fst c =? n) bn_certs = true -> prime n.
Proof.
  intros H. apply existsb_exists in H as [c [Hc E]]. apply Z.eqb_eq in E. subst. apply in_bn_certs_prime; auto.
Qed.

Theorem q_prime : prime q_mod.
Proof. apply in_certs_by_eqb. vm_compute. reflexivity. Qed.

Theorem r_prime : prime r_mod.
Proof. apply in_certs_by_eqb. vm_compute. reflexivity. Qed.
