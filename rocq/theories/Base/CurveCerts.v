(** Slope certificates (with quotients) for (order-1)*generator on BN254 G1, Grumpkin and BN254 G2, generated by a script;
    nothing here is trusted, the checker in Order.v validates them. *)
From Coq Require Import ZArith List.
Import ListNotations.
Open Scope Z_scope.

Definition g1_steps : list (bool * Z * Z * Z * Z * Z * Z) := [
(true,0x244b3ad628e5381f4a3c3448e121024631a10fed0e5557e9ed186911225dbdf6,0x30644e72e131a029b85045b68181585d97816a916871ca8d3c208c16d87cfd3,0x15ed738c0e0a7c92e7845f96b2ae9c0a68a6a449e3538fc7ff3ebf7a5a18a2c4,0x3,0x1b386c209eabea1777ad2736a8d8c1b4a538cbf1cac001ef71d24eccd9c64e79,(-0x244b3ad628e5381f4a3c3448e121024631a10fed0e5557e9ed186911225dbde));
(false,0x1d7829358c6b59547bbabadd17120cc967c00abe4b1758e322f990633ee9a75f,0x769bf9ac56bea3ff40232bcb1b6bd159315d84715b8e679f2d355961915abf0,0x2ab799bee0489429554fdb7c8d086475319e63b40b9c5b57cdf1ff3dd9fe2261,(-0x1d7829358c6b59547bbabadd17120cc967c00abe4b1758e322f990633ee9a74),0x11f2335a0baa65fd4b59192e05d81ec2db1420cc7fc7a75c5f251b35dfbf851b,(-0x2ac2b8ae7a750dd271e488d4c0313fd44ba5372446ebae6bbf1eb8182ba7dd8));
(true,0xe961a40abfecd3902bb1c8e3868f2f06a8e6111bb6072b6104efcafca7fa6a0,0x9f4ca411a3f52f4e0792fd9e792779856719215d3b32a762afe3d5b8c684af9,0xd8ef3d795acd4b35d4366ab22e4ad335273aa59429e26929d0f64583474d9c8,0x16584f81c6a94ebf3e621b23debc3e22b0f1e6b56e419e6795212813ecd6cbc0,0x46589fae0e4426bc7950c3c4b13c383b03f13d5df84879c5948375b5aa10d21,(-0xc43ceb900cf7d0b0721ebda651440759f7aec0a9d252d2de2613be1b846a6f));
(true,0xb98b758c06981308b79a1a019a4b04010da58f80b6f8222a5d89ee7855f6456,0x25d32c471c8cd1ab9ac9b4118d040166f75ad9e4f36526b09fc0b7d1002bc851,0x2db09ae9bc0cb9addf3404069078f0367ff42b63cb1c200bae5bf9095585b69c,0x5a5f2ea62651bcad88ffcb4837ccaa88e0b89ab3aa242b98a05c61d2aef44b,0x2c76b3fccc30b234c472b65235fd5d399619de2d0ea835d1b113216107808d7,(-0x6adac64761d5f13d53c4b0e48fdb441753de98cc48113f5cd3bc2355fb53e6c));
(true,0xcff828bafb248c839cb800c24b8a47cc46daf2fd5c2f040278d01985527272c,0x2d3884ee594280d7510d2d0d5e732e53085668e1b6d8f91de3942f922ec35fb2,0x152fb4da392da5c238d1e65a12a41f89c9ab5f5e7a77107ad38e34a1b835ce5b,(-0x4026c689ac6b4b9dfd5bad73f51fdbf952abe393aa7dc4c81411f93585b64c25),0x37dc5a7195492c489bad8c96af8df1b085926e549c3c3fac990e1efadfcb4e4,(-0x1fc8df1e8820c30b72d3274a9bc710e0147c0063ab0d6559d87027f7db3cfc5));
(true,0x2256e093565e4984ded667fc6496031dfe0fe653a6ec989265265b1fa025fae6,0x1774c9824d457fcdcdbbe9679bd152d351a7597b49c9f69bb2467a6328b7b406,0xaa49fb46445cf3aa565cef7d4040b4c60d3e4f866e8c90a876f9d7f4d0adfd9,(-0x60b456e57b9c8321a9dd442b91d38ba2402a68370830e94f32f8112f9c4585f8),0x185e1a2fc52327e0b85a32070bfe4d7a9f2a70b7d3b1f18abb9059004caac7f6,0xf71c307164f3fef4cc5b27bcf5af09789e68b2d5aac2e72ab82f39021a8a10c);
(true,0x251b3035663e7e72c895811a4c9a83698329e3065ade57e3b20c3cf2d1d28208,0x2947e347a1b83971790018d5fa3a3c691f0dc720e0cd494a6c5f860a58ccf953,0x1143f0155e0f21c29867070064ac3778983f0d47aba2ee9eb64dc3f0e22a2b67,(-0x11c967ab374c2ea6eb17dbeff2a78dec3468636be7c1858f732a905d75af1844),0x1c73d9dd2d56a33c3b27f9a3d7ac89a46bdb09b4451f69c24bb8a5e69f1bd697,(-0xdaaecbf2e82fff534d6809e1ab2505492ef0d79dabf989823f805c0b70d6718));
(true,0x1767741ab1f087c8b7880487423379ad3aa38e3758a05b97fe487ba9f6408325,0x2e6ac62f9e70e0c7cb62fedf1aea5461faaeb507efe3c908f65d32ba58c93551,0x238fab1dbed6117abf1bea6fbc8150553142788f80a72fd114991c4f1a964b69,(-0x58f19f37e194cbc11a0fe9883f1c09e6c1aedacf1bfd775343cf2271f0ff21e3),0xb51b18b3c388ed9bd90b71d7eda2a10f78b0053c6cceb320d60e63791b5d28e,(-0x27bedc3e36870d17135a0430debe67c6e9f9f10b641992972b2b1940d1cea4a));
(false,0xd8970a1e71aaee536486d81b29eb34edd1e1de9f42f7878047a0c22e27f9f77,0x1fd92cab08e028fd764fe760ba3e6845d2332e6afdde2b73be8fd24c218dddfc,0xdde28cfe0ccd3a14a803c65752b7a54616989ed3670517dc279fb2490070f2f,(-0xcfc0667a1199bfc2f442c562a34010a655a511aaba0409218cbbd6b3cb24d6f),0x3c9676e834200a07e200680265f234c84aae8ac3561d46057c3bbebb4c02f65,0x4134c7688d28e6003d42788a60917ab6ddb86d694fd1445c43d648a449d593d);
(true,0x116a74e67ee4848e6f61cb713f5369411c844259efa635a641214f6e33b0fb89,0x1f41679fe3939070915beedac715b5fbf56c58e0d82e7e21325e870d4ece9328,0xaa9f61d55a36618aeeed61bae6ffdc16121d9d4073d456602af889a91f73ba4,(-0x34e64f9f019fde2800473bf8b70049377d40a0895a35c40c17023991bb29b40e),0x644907d409f7db50ec5e7db13e3cf175397d422b93ee7aebe23f6b6f11e52c7,0x369ee9b44cbfde54d41d413a6623779e3b896f10b0c32b1b468b447365ead7);
(false,0x731dd40d65955f07cdc0097d78e265f5874b4a3690cccadb4545bf193f8edbf,0x2b65f4e693d52d982315a229c7db569f8c79f93aa206b5353a3f8bb669cac132,0x29f24e9fac669034b4bcc9aded460e0a046a91eb0b9cceb2647fcec23979fcec,(-0x4a5a14ad322df2590b7489fd8c7f401204642a4aaffd1241866e11912cf4a51),0x111d813921eeb2f983e245b0fd1fb666405c9472a3c6c78ac08d113172c59aa,(-0x1ce2c140a719411b61fcfd1452ddbdbf43307bdbffeb0378d79cdcbda5636ca));
(true,0x18b5190dc47a8fc2388d2e7eb1be103087916a1bcd4bac52b9b99019d79be8b4,0x2ead2fce0edb7d5401c712891cf90a0c0c8e090f91fcba4c51dec8363d3f5d9a,0x2847329a18a4d1dd391b26024919bfc1fba4aba4e7e33b6eaa150b6361fcb9ec,(-0x49ed3e7ad2a5c24926744b968080a7e83a122675f57ed70dd360bcdf2c9bbd34),0xc9d67c49b79f878afdbcb7f44513a5433a9848f75346764e041ccc967996dde,(-0x1ac7c588c662b50cecb822c70ea14cae1e94c7e478e57da9c05470fc068ac48));
(true,0x2020edce0a784e6ac774151e3160c2382f646fc6c00d139446eece41741a97fe,0x14de9b29cdd83c5eed88899646f1cf9097e05b47aec57cfe936552fc10b6fd58,0x1e24a987e680be96594b56c724b83a47c937b070dbabf453a4f7fe3ef9a166f6,(-0x5195229e5287e884e62ef18b247e04e46a1d46ce59ddf58f077226da52ae2784),0x1554c03c771e2c9f368bdca353c884e64ce0630d2ea24bbd5d606df2fd19b8c8,0x1122493cbb9d902229cfd06b5b93d24bb74480c5a8ce52eb6a7b86626e486196);
(true,0x1a48faebb3190a6f38f62b206455d444378f35fd1d1681a4b72fd171b3a6a3be,0x3019fd738a37aad11ba41d67ff91919053e5244d4664d306469d903abbbc6f23,0x11f42edeb9250b22f7884e1609c9f2536012197a3085aca4c10efcd015f2377a,0x5bec2525739d5ff920e4b33461b34af2ddfb4b66297d6955d4c8edcdd0a3258,0xe46fe38bb413174b5f53e226f31d9a9d0f9014a81340e7018af8ed17e14a3c7,(-0xecaa8f45698802f0a1cdcfa1b74a0a85c62e77994b7e5b78d2c9a7a8e5cf016));
(false,0x19185428ef39f8fc71c632d8bf590612fc846ea28669a43c8998439282f440df,0x1d08fea0d6494b1a2ed61046840f53cadca36b2258dd52a1cf6397221784d0f1,0x8fec6b661a1bda3262f068994c9eeb97636f6539847cdfd309d8b2ac82d8a80,(-0x18f1ca2cee9991306ce61791ff4297f7140ddbb23589378feff0fff14c20eaaa),0xd03876075f8fb163f3d757a317e4e547f1c6ea4b3c8877f506f53829f20d274,0x9e32fd94b1f1c90450f6bfabd24f98c5b80b3dedb045086104ba484a40411cc);
(true,0x16977aa83d87ad71978b57c89c3d6f10126be63485c6db94afb9eff33f49e493,0x157c16ec92ebeaa708ce9803d09b97f564b3d35fe34d46d48e8f5486252e3609,0xa12e3ac90116fd7c4098b37834bd4cf156e469512d086c0d274d2e55b85e575,(-0x2bdd4ee8e76875556ebb590f9dabc0bbc24c8cf0fc2b57aa9952dea5e4b2dec5),0xa8c04344d3350ae95ceacf831d44e2c92865458bfc0e09b8d34ff9e5bde0e92,0x386606089a237defe4ee5950799554b2f1b84c461f83160f50d322c50e23825);
(true,0x27451181e3f178a29d5f8e315b3e6720e921f458016ed9ee9bb7e66ad382e014,0x17711b568b0675e01bc70c255e5d03ac7a2499583d3e7a903d1964f138026d45,0x28687a50b3c052468273146cf2f2033581bebf586f15013fd4b4553a0439fcbf,(-0xc442cdbfb61a2f9bd6c372b68ffbbc0514e0529cd7e5d478741e987e723697d),0x1fde07daaa6a5f8a17e8efeebd65389947e4de23b36fd3f1cd51b95b19d26e7f,(-0x19692e359d9e5c95934ccf0717a574cbb59a956d9491037eead60d9c4fa17fc));
(true,0xbebc5e4a72832894dce797b023675d94ba4fb3a6a36dc63c5dfee849abad581,0x1e58559e3af408ab36cc76330c7dfb09d283ee44f03b2bcb3077b0355fd711b6,0x1d2bfc02d25554c536eb5a84f9aff6076e9e43cb4581188c9eb7dbfcf2e9f369,(-0xe2888fcc656f39be01a2a2d7dce3c89da6f116a2ef62122ff309a7e997328cb),0x2efc874bb2edcccf798571c42234bde5cfade11c3e6d4cdf28c9062f48e07b7,(-0x1b3581f36b35397797a03ea45574d1220f92c8ac837b1becbb1b1bfb853e59f));
(true,0x2fc6abf9f34d37080e5e40038ad78f066575d4dbe9f9c72e48ae6e350bf51275,0xc0ddb2e56f43ac699e79a186c8f1e9a445253a5739717a44cf361899fdbe93a,0x135d61f7edd7339701080b5b15ec9850f568afd5f803ecaebbe2c3286e876632,0x840cba8866fb61057b5820f45405eadb18a092f14501598179c38b714e66c2,0x2f2b0afe4b8e7cc7b2365218d80b6f1ed48f9f852d69f9fd4d308fd00cf87a15,0x120ee56dc9132a1a8d0784ed3608949de6cc12815e7d82beda36772ee9a30ce7);
(false,0x2629f9ffea8f943cb4b4e71d3e7fcb2cd83d9efe6293ceebd8f3abfa603f17be,0x1f899934c2182b05f437119e66e1bbed41ed73e72717cc29733ac0dfe0f6301b,0xebc8a5e86219e336226ad25e79717f93ad87c1e196280b3b3bd64115c820014,(-0x981a52bd9ac1dff6f0d134a11e8523e20e0e8738cc311414505ce1743037cf2),0x1e190b2d5aa836234123e1371e0c8d28b8a607f061f9639195325dc72e6589e2,(-0xf5d8eeaa2a100530e6dcfffb3514df82eb65d46dbdaeedc8d7854edb188979c));
(true,0x457284b49335a1a09419ee3fc70f2f477fff8854cf020b9e98045a2acb51779,0x39247cce3ea935866213a0b654196c8378563096dddbab8585b02564f28df76,0x1573e71ce49759ed06f0223a979a2497f9d208d9b0fa855b3c586136fb65ae59,(-0x3b04372cf94588a8df86c6e80e0cdb7c5fc53c33aa2d55cc22567a3223887ac5),0x63aa099d6639954b1b83e5968951c864bc5400f99bb364b176f97cf3045ad3,0x28225f2f1b132714696e5e2e6b2230b261b149b3b9f4436c6335ac3fadbb0f0);
(true,0x15a8c261ed8e0f26105550369668c3035610ab4f4031396b3a2038d0fb0605e8,0x23110dfc6fb75366e6a61de00d90ffaf202cf270fcca64dad9e32d73b76073c0,0x19b6e0585c0f4cc00585e622a8cb5199ec923abb7bbfaf1903d71ba2d21f2d0e,0x1269b4aec676820540d39bc53e22a7cbacd2f855ff2a4a6087cb3dfe506404bc,0x9b1b94f5fcd19cbbc0c0aac5f41270864dd09ce034b0ad3b4e727498073cdcc,(-0xe18bcb7fc71bae958217793cfee01312b003a2e263aafceb03fcde449758b51));
(true,0x2fcabbe612d54c1febd318de5172e614e344ca7af1678e6949426b926bf26eb1,0x941889e4b8c998689058f1db3b7ce51e080abe2a10e045b9e9fc0f5fea1712d,0x1fc94c74309cf6adc3630fae13b31a8e57c58c3240622031ab927664e75e7804,(-0x1970d6d5a86cbbf89929e0c1e22b25d0f07dc9f4229ace365ef8264df948923c),0x2f3310b6d0cbeb93b7a7fd8254b65473632d4dd518047b81b8274ce32abc5eac,0x197d9c42f30458e6e5610f709dd07896c1e40346ded4af3b997317eac990f367);
(false,0x3af2678d9e247c18442a5f6a1884cbea9aeb17f4d97650134a22d9d6428c347,0x225327e947e1138dc23e45de1e5a011e9d4f8a391c2a893066e204e2751bfa6c,0x283ec6e22c51bc0b2858945f67365d65844aeb194fe161d37b02a12a023b796c,(-0xb465e6b488f4506758dbead1a190d2eff65f9d8d111d5e489c00d35b3c283e),0x47cde0288c54f27d8f59f5429379e26cd780a62fec67ad084a90491727acb1,(-0x1e8969e32c29209f0c70339a9d2bf001c68c66850e32b7360691cf74d357a4f));
(true,0xd58e8d273d42440642e028fa299caf4b6b60f364538a9b92dc8aa9c396a0047,0x2a56a1ac03ecfdadb3cb26dcb2bea4f135af0727fb21806bc48bca992c70e208,0x23f2426f577e2620732e483b4e750be019b32038dbdaa921b0d524f6097fa0c0,(-0x32d718ef419c19272dcfe4305e0da45a4b0757773b1afa0824c4007e28794ef8),0x3ae715ba4fce18e6e1745406cc75f552989d65979cd27065c28fdb18139a127,(-0x235d51f219846c9a020c5b321cabe1aff20c05247c58facffa92386756d6e10));
(false,0x24441ec661ab06146a0601aeade5f7d92b6bb9d07e6037afeb99c257bfc1e4aa,0x2f2883665c6cad5c8d794da0f41bd3603a893a454064fabb26a3539f7e25b31,0x220bdb98cbc1d0857a6817b7991387ef6b3e86adf51e69585e825cebcf644da9,(-0x1fbac0ddf44d0ecc0f74082a5c36fba5aefb63415c0451884371465c6cba00d8),0x1b2dc3145a0c831a21b0bfa3c86ab4f537b1b6de4071c71d75d13e59cd574c06,0x1d85498fd00221e8905966f77fff64fbbd0d0bde036096d608225baa9368ff3b);
(true,0x1d2293028efff851bfb5c2ac7480450a7c47ee6b548843100b75690b5f17569e,0x278c91871c16bbf251ce4d6ca2f655e16fc701ec44d78b36a5c21e96672e71a0,0x8a5d25a4228e709a7c76819f385113cf781f0f4578abc6c0cb40c8e822801f9,0x28752b627a8af5021901c931cce38f71292f6dfc6f5fb85fd04391cec53dda3f,0x118a8d391ada7a5014032ceea95604873a4c286320b8876951ec2bc15ad38b6e,(-0x1609609e728b8f59a7da5c88b2ba4c636085d7fb658a4386ad9c33c2f7a2febc));
(false,0x20cc17eb43866c188f5233aeed0e307fa80887a87554dd1c97e07a2182b3d8d2,0xd656198a4895dea5943bd3e6e39d1f4ce7a5e5c76612fba953b7bce17c14b72,0x3f7c42a464986266e8bb1fae49b2213637974c939a357cf2fb867f5343bdcf9,(-0x1acddc207e705aa9d39b63c8ddc663c0467e439fb89174fa406c8a7282ad9151),0x163a65b269c3fa29027769bd1e34bbd990dcf97532b60fe4e749789573b8abc7,0x11b99e860159bb0a15525c385ae01ba542159eab3b0d1db3c6a2c9ab1f9623e6);
(true,0x2b6d2fa38bdae61a43e939fd275b5da1bd06f3823e74fed6562942fbd7cac6e2,0x1fe716a279860d779cd8981cc065027f923fb1112fc6b1cc4dcc60ed0f825f8,0xc02b1b9294ca834d6df557e24a91987b5780bdf3fab4c164f472211ea9a6d18,(-0x400ebe7bc154de01bb472cfdf8f27fa4b0061bbdb55f45263fd34d46954c618),0x26f87dac03b6ff9cb8c81b484336d9d5a6fb5f6793bb96d45cd72878502afc18,0xa3b6faf9d995a2d2fa6cb5e123dd89bc0ab3d9e9f57cd69dbea3c3c65dfc0c5);
(true,0x26200d5429d515598024bfe610e7878a494e590700cdaa4f6bd465b60019a277,0x151e37bcd860948a593b1d6583be7aef2304497f75e86b07a6670feba6b5fb56,0x15ece7625df7c298c7aa6e821c8947c8886e486f18a476a1839d648f301be90,0x12ada97f08c852b5715bfd5368f6e5e17372cf5e8a88db8b597709702cab3ff0,0x1e0965d6641d6531712659dadef6ebc4909e549e4de7d319fa8e5e835988cd1d,(-0xf111b3c8cadebbcfa27d903b94ee5253fcbc70706bdce278b945bc493977bd6));
(true,0x1c910be39023ddd1d07af27da09ca8ea16a0405b4db5b39088c26eeb6603d62d,0x105f313305c4abe0e43ff88ed1a159685a960420a1a2af49bdc7006822a77e9c,0x1af8fcae0ad66002a68576e9693200b21dbedd8aabb457c99f937f62225f989e,(-0x1a0798032c4f947c5a227bd766eba9b5f5360895b70756c46f67adb5dd45b194),0x10dd06ce4a6a9eefeeed61c0d4756f44ad78c1fcfc7a99b8558ae1e3ee7228d7,0x2cd40866cd039b1a80d9f875b2c89c8f894e38e9b24bbe0907616f2cf9c945c);
(false,0x2c8f443c9a6418ba8ee9a0c0e1003ad8d4f1c6e62079b4ffb2f7cd01286a589,0x103ff6f07eeb56aab2b9e5b04e71acbd273e8774607e836dbc4db7c41e4fda7d,0x2de033f5dab3c6c5d775017f61f212aa34f3c3431e3530ab15fe923ba3ff9991,(-0xf1349cfac2d534487b20d5dd863053f738021cee9b0ca58d9ce82989082571),0x2907ea7e77fcd41e3e252c7ceb2345fa4d441e625067c43901f8b1770ac391,0x1cc130236572a6f88456d6e946d3478233f0dabac210351ec282ce30b8b58);
(true,0xc4662460028411b85bc48be77ceaec94ac833d4f7ce5a6f765bef5e2eb54704,0x5d383f98627f9829a7ddd230d24336f13d5e1700456b1f042c5023f99a1da34,0x26ba39b7c620bb18a6c70bb58c0c2577d142a65f4e04161354f98bdd68be164a,0x6e74908135d1aee4061d040a02fa44dbe326005e0bfecac62e31c529ea08fab,0x31d16a72b5780aa3e0a1a95b9c8dcfb350b1c6e1eb88f819d57d5bef6a9390e,0x2a4df19a5fcab7b96b61d5d20226c031f1b4ff6776d4d6a28b00409e02d8def);
(false,0x15ab8ca6917a81e779d3a5204115e7478fb0bf75d1e5c4fa30e2cbb4af4cf27f,0x27d34670a85ef3dc1c4f4035e7ee81d04f8afb98b75418c2e63ad14ac1580552,0x20e350320ea51fd5ea9bed7d4913fa3d12bc16066221bcd872ea9d5ff9fee47,(-0x29be8984bec833506709227d3cf5d4edacfa471693a607571da0ad766533753),0x9b438daf5749b28152d9a6c0e5fa2cb51f8db75d0b58a1981cb28f3e5efbdb6,(-0xf3996fc46fc88bd740357b00d14cb12fbacd4d012b306a25b1afd8c504d6575));
(true,0x1fb4312a9027361afaff60fd046a03df6ede6503558b3616dcb5e626f6386988,0xc50e80f212ba34d51b231331f93460c7365af30aea04a61bc153e90130bc2f6,0x766b97490dc7b656ad29c72d884ddd260675002e75e074d327d81fda8dc576e,(-0x5fa1e70dfd0ec3410cdfcfeddb136b8c544ec023c2aff18a6b4b7f05a50331c4),0x14c5519642bf7005950a097207f56ba33d97c98998aee62b5cd90fdb140b1b2a,0x1205cdcd1368e556537807b1f32e0011aa18788414b2831604d6dcba44f858fd);
(false,0x4ce8d1a5e71424be1747557efd95fdb994b38b6f31f638ffb55b4fce00d71d3,0x19c2e7204167047148e9ae9601c3fa23c884245bc9e1a03e309ec8b3687e3b54,0x6ea177549e049616771e8f3e06be46fa16a9db2ac9b9d922277cee53c716418,(-0x1392ef7e86911d13ae7eb0f5467b6bbdf611218de870d56c54a0e01bead2be5),0x7a3b929a18f05c553f34d7adc19c5c339477bb40d9a7725becae6340d57472,(-0x155e6354a42a15ea9d992dad57af59587b84e5d45c5995df92820db9ed99900));
(true,0xae8014f6919e0274f0af2e3c37f022fb8f79c46508728d48adf96e03ea145b8,0x1ce7257b76631618ec3d3ca7ce6d66b5c01f2a2c7e500f3dee357328d9c4744b,0x6587155a14015641f19f2383dc17b16cb24a122c53027afad8d70dbd6cd8286,(-0x2606810fecd15d5c875ab276ce36206e5c2e959735f688661928091d6d016e50),0x2753efb773d2719c696f438b64ed58a5dc2a913672ca0639d432e07c1ea7ecb,(-0xb5417b05dc1b410fc006bdfba8fd47926e3f95ff7ef4701c9d2cae8541f6aa));
(true,0x2f32de11a7f1beb19c3bd7a238726cef7e4b057511b48d9f6084b8148815312e,0xed0cdfceed465e34cc44573646288e1ae736a78c0d67304c2c3ac689df8e011,0xff2e53deab21ba9c98cdf2c02a6b145d245b2f2ee1df1b3a142a0d93f8747f3,(-0x27690cf6d290746bd7c86a6ddf73f80591ba518882ec9309c34a63e18c0311a5),0x2e08f58e41bf0dde485a0d730be02711640a79b86c86d28a02b9ebbe3b12c1fb,0xdbd6d066044765670463f1287dc6ce089bd6fec9c7f52f457dc8756e55b8bf5);
(true,0x27c02623a8ffdba4116d8c720e3e90cd9a374b3bb259c2cb2a40742197743f6f,0x29983372fae8d73b650ce64494095bb4a395c617b2eec73f3f1e05f22c7841da,0x2f1f6e919e3472dfea1715d64eb4101f0f3f50e3734e7bc43be9dc45f15615d,0xc980649352fac65ddf63649ee74d252a3a928e3895c523a2c2ad19633971971,0x20a70331a6676cfa3b5861101b00906ceb218e369549e616c6204f4581274d33,(-0x15ff3d99198d7e801e53459749da827d87e77b34e172c43ca4825e1ee4920551));
(false,0x194c2176e3f30ab41f6460694f1f8eca03b0bb9747a2fdea7c6dfd21e7996684,0x15ee1e1d32740949fc5438a692ba772c971a1cd77cc005bac71d2a4e7cfa7abb,0x4fc8cedab51b37df2a695ef01c4a72e3c25502ed1b63a13d83743da7f7b9134,(-0x15be786de4c5f26179294dfb40c32e3b114aba0cf0b4161556a04a250c4e73af),0xd3978ecef45db50d77a246fd5403b1a01680aeef29ab411c04cc7ae235ba1b6,0xa47a0198ffacc2b5b28b48624ac44c6979be986cc521c2c1b13d1b4f2923abd);
(true,0x14357e2bc3beb531edcad9c9f25bd2d1efa6e5ee8b5fe44132144cb8f9c7b444,0x169d228b80829bd58961f11b4ba4d9016b7550e9b6350caf7b1fe55606269861,0xcea757ef9dc63d5c7a57add1fc2ecdc323a5e9985f5c91e38f64bab6126bb8b,(-0x19a664da9b924f4d2940756f1b365a0e3e3f05fb26603b22471998783aafedfd),0x87081e810b737bc772a09bf81e352723a3119980279a694e1a652428128927f,(-0x4916d2902be09160ba19ab493fc192b8260a3b2515ead7f4b4f6b8ff6063f1));
(true,0x2ea3308826defe77016240fbdcb96728a201e6e0ddc1d256939c6df3721a05fb,0x21127815cc72f0b8a1656ee2550df2b7dd363f0b9d2ddc2ec0f205d2372a12ea,0xb36c1eae1413cf68e6d8a9ae1a33201a7f78a24dcbf553be8a72728d6c52b86,(-0x6ceb8ba9421dd04ef0d204d2906d72ae801d457e886fe6b9633e1acad967947),0x2cf25acc338297c08cde36a98a740818b3f595168a1fcf98676e0d93381b1eab,(-0xa14459fe5d632e864a3cc1437cf3481e451979238ec5cd389af6e0420bba67c));
(false,0x122da1676330aa5ff6bd0153d912dc244474585db9610289377cd8c58edabef,0x28d9623d661622287389506a929948c5594576c77fa060b907adf8f50427b2a9,0x43f019df8076c3ca3b543d2855976dae958f9b64bcc7a7fb6d6e7991c6187a1,(-0xc6c67689ccdf0f14a34ba4f6ae70009f4cfa438f93096d874665dee83e3e65),0x6d41f5946385fed55557ba6f81e088a6f7580c8bb7121a077b34305e8328b,(-0x2ebe194b8b65eb35031ef048ede7873f9e16b1601453bd7fa3393dc34114c8));
(true,0x230e04bffa386851c1fafa06babc8bbb4234a0c29560cba942414141ad863dfa,0x886d28fc7720592206a47a4e4706ef2fb8ba2257753c66d818a1da7b2a14d64,0xc4e799f8fb161f93df6994f27c2a298d444a1471cb9a1cfffc262be54034408,(-0x614b708c66e278a5f5952c6881ad688ad7c9d71d3e70224129cf713798dff749),0x1964ba5614dd91996c7330e32dc4020ff9bdbf352ba9f32d0c82427fa4f42e22,0x176a0b844deb793d540a0f81c99b47f650207f83ae577494006107e02ad937ff);
(false,0x22ef621bf0f9c2d226bae1bdcc8c218a63a249b2c00bf9179303d2a28caf914d,0x22703c7f05bb7c5025a8a36d6d73486ef4912a804366baaa410d9e01e7378b60,0x1491498e058717c25f281265df7b168e704e822be71c0eef63f3cca28e98284e,(-0x627d383b81f475d6527dd462eb39bdb243fbc1b10f8c6ded205127447e9b8b7),0x19386b66e841a7a6945e61d6d23d6abee597f77a72c8e99f5573f5c4e44be67c,(-0x12b4cda045246999f0d7fd4b5734fd7735d2a82433124ff47eb1ea4b746f12ce));
(true,0x1878fcc85c1dce91658be516a7432b0270bc1f0a136921644da7d3f8510170c5,0x2d04013a8518894fec065acb2c033f905ed84371d5cee57f94bec869faf7ad25,0x21906a1c3ae514f33580163a288ffec0bf12dc02a58016104ecc6a2317aad6b5,(-0x34b8ef0557ad36bf19953e713066f91fd034095d48ad324ead5676d43a29a66c),0xc6050dae44091e6d000258e11975345ec786cc6ce37c95b5d3a1124a15db8ac,(-0x5595de68865e8d906949d7426c7696fb6887b8f618cd488c702df148b7b5584));
(false,0x2a8a52af043646d6a23ad106e7d79330e60efdca49a8e79faf2ebe7d18342a1,0xa6e386aaafdc48debc5e1022386e6c6ace9c87878489826c6cf1357b6af4dd0,0x25836d5350c6091707470961bbe2726754f2889552f293e912936307debaccf3,(-0x2792882e82d320e85cf0b9a6b142f0815482eae02d34916ae5766d5f16b5807),0x25657972d9bca74f15357e5f2468086ebcea3b8b7c3c924922bc2c6ab5f8dd,0x1e67313e260b95f314d1d864df511edb6b8c6b7896697bf2bf8ed10a79c414b);
(true,0x17bb8c9e8957d37f901ef4e021c2d48c25514468863656d7bc971e63af5916d7,0x8b318ba0a2f254211949d247cec79f067d455cd541bb981a59e724af3e04c7b,0x24220185d812807b7050b987ed4c2f2dd3d38f16bfcb034e5321b6a2d4797daf,0x1e0ce57bfcb21e18956ce6fc36c696125b561e5e375dcc399ac4b71228e73a86,0xba39bb1c8479b3fa3a45791873465c0d2233da8562038607b36a285ccdf5eda,0xd951ca049a87ad583ca809d1b6c247f3f62259b635183d50b20c92e50a4cb7);
(true,0x1dda5675ccc27bf681af2669823a2e82836679361947ae1669b1dc004e7a6e07,0x22269f0fa4e41e45e5ddf4e6f9d59b9fa76aa58dfd251704625103daa631eade,0x8f7dc58e7d02aff6b4a98ae6fc3c263aab934be27ef89de71a848d58820d2a5,0x27e3859529f977966ac075c28b6942c87bf2d20bf001bfba22a080469c6c1b01,0x126a8d8adbbeb2a52e3dd477d1d84bbc38bd8024f26ef4782c9696ffbace573b,(-0xfb36c38aa10dcde290774eeca7d4ead986b4c4b607acf8cafc59a93b75e592f));
(true,0x1442c245686c8b476cc84a5337dee66479a11777716e64f1963f27564cd51172,0x28e5cc04c1464726c67c6a1deaec49c480d400e8bbac17ddd605d69cff226642,0x509bc2ede457a1b5d76ecb6c2a645284cd845d17b1f901a9159e3d63f226931,(-0x40caf1604c7401f91c0375844dbe48e05d52e1b2a099d7d587f512208d4882a8),0x87b9a0a6acc4d3911053eb544a01d2b5dafbb6a27422152b44a29a4b8a51a0a,(-0x2d3231614fe7020d2669497b414c9caa59c43ed9196e0297a7d1cd241ca11b2));
(true,0x150b05bc01631d37449a18ac375dcca7f6be692491ff0a5a18fd0c4c5861bb2d,0x2006739343c9a726e9879a9b948abd3d2bad01f984d4dd218285e5b54de6c8f9,0x1a7ec982b70141a8006171c47b30f4320a03a89b08e2414d6b81d6bc5d9ce663,(-0x634f838d960edadc2fdb679a17e6a540a80073c1edbeb9640ad72902556e289e),0x92688514abfbe2219ff93f9c2c2788137f99ec72e2fc0567437de5d1a135234,0x3dbb047ca994ad2127738085bdd5e62df32565dcc89cc72a12426c2c4a34937);
(true,0x26e99335e96fe973cad007b35e14e37b3685b24860f0336d8919996c73a98d2d,0x2e5efb7e927ac4ebc8340144e9dfa02dbec413eaab0930e96b0473f953c36cd7,0x108df32b9176436ee0bb49a583109cfb97a98cffbc21a14ab844311ae456b66b,(-0x14f8b7ff432b003755ad905f64800601f08cfc61d8c96cd10274e17a6af02693),0x1f4a369c5ee97f93e427dded282b8a1aa8b659aacc7a2dec80e933db3f249be0,(-0xb891f7bf07840b502ab53394ba8df42f2f70dfc4bd1ec6722577d5461e4628c));
(false,0x6dc90c5a5be3eeb145e8f7c4101d2954e9e25b9cd6c4b3cb7805f660ac2c0de,0x17767667b3a84605e8ce962a872562b501357953b8604332e887a2f4bcbf0336,0x922c9f42a9b2aadb825d8ffc92556323e4e27004b72979407e44153c4d668c4,(-0x6933686818e0f140575b7f4b1dedb1762fb5d608e36377f67f172872b5744fd),0xf9113c8e3fbc8f9a915debaaf3e43297c793110259de40d391244fad184eda,0x33f8b169b6870b7675decff12f2fe412e86cafb97f7357d6ca78c5202c4cd99);
(true,0x1ee719cbfebcd3259f5a49d3c5099858aad98edf372816c163affc6054973019,0x164cd01801ab11312ac93ed5e1b4514c25a863812dd6de902fb7f730f3f93cb5,0x142de7bbef6e21a545154097a5936611b65523a65ba9f8a70611268d1ef690ce,(-0x16759d532a723b22580da6d8d065cde8534dc6cac20c9fcc29dda5776f0e2afc),0x13bbfbafa07b5e92b07f9655844c65ce0e96b83b8af9b9945d7c4504ce634e30,0xbe13cce9b752964369e510d1816e47f4462d8db98e8d8ce17c51a5e2746641);
(true,0x6c143c5e6a1e24183de98f17fb81e13d8975f2befd0997ec872adef94fefac7,0x233a93ec978652ca99049ff297993f1829e3ca917ce6549986ad0755c3e29fd,0x18aa11f266d430ef8402a3769728ecfdaefa6cb6ca1fce2430e5b05a1f052134,(-0x19320cd56275204b7c090df2d331811bd9475b0b07c4de119a33748626bd8aa1),0xf162aacaefacb48cbc7bce376f75e5d1e1c1e25be2571238fa45ffce8aff66,0x2ce343023ca5b3759288d4f5c5fe764115f6a2771dd523be9bea97982cf47ca);
(true,0x2cd6fc5fae79a080466a68cd70d2801526fb36037be545693e0f552b540af3a2,0xe2f78f0520e179cd1c2f7d2123de0564b712f6d351a53e884fef30c002174e9,0x14426a431a2848e842432ef1f09c2532f30b36c3452cede37c1cc278dbba142b,0x2d6846d1350bf2fc3e9f95d22bd2ed3c2f09fbb57f5bbc7875990994d118e723,0x298c6926ecec68a3065832675d3c84a4e48b19adede641e0dd69788cb1eb75d7,(-0xb1aa117cfa4ef866e50d3bf673c12e6834cc473d162f052d3bdc96ce8b82711));
(false,0x1c017a5d7c485bfb268f19d73d42aae5c8d6c621fc19b792dffd79ca4e702eb3,0x263dda419b86777399bca4d88505c10656de74fcffacc821f3594b40f8fd97a0,0x25f7e8a2c2f5036e61fdd13e7af41cd470bffaafdccac517395e84ad1964a0cc,(-0x835a3dd76102402eda5644c954e20efcbd27198a16f68377a9549428d9600f9),0x1035302c778d0c3fdde3e684b7e6d104670a43d5018e81a412a984683aa649e9,(-0xdec093b66b9b577753361a2d3fe2ebf84f682792a7f8403209d8451540381b4));
(true,0x242128315ae5396c35862786096b149a114e5460da5ad3daff439ce9e7fcc5d,0x26f16ac80a65f4ea6cbaa4d011c31aa4298119cae653cd396836097a148a298c,0x11e2061f1a6fd788e659526363a073970b50ee713a92f6b6bbec07cc5434ac67,(-0x571e2984d5e4ca26b0683b59c87eeb6d47efa311b8e4b36625d446e8055d8df8),0x1af974bda0c1bf1bc371fa5848ee3b3658e4d26e628cbd589b241a91a2a19b,(-0x861046dc618aad94d86c6b85de660f97f809ae0b9c109b66a5033f2633c19));
(false,0x2e9bddbb1e401b18d7a607ddbc67d4b8d99858e329f95b3331cba4646c0a9472,0x1eaf194a99062020cc86913e0eb7b7a60f1606f9e5ece1adcf663fae0cb6ac91,0x2f237de4c78fda25b24736da17f309f655092d1fa34bc2dc4347527b1ea0fab6,(-0x25821975a29049a32e8f02c6e8152515d7150ca01bff26866400266b631db0f7),0x2ce43e3d52773a0b5cb9d815eee609b7fc333b76b874959adf5898809dace92a,0x7f46adcb7dd5703954bdeb023cfeb0ea5fbede9ff4b57e65f15b66839464e8f);
(true,0x8df6f9e9074dc9b4821f9f4319deee252ff56908a024accf49963f4284d7ffa,0x2d00c18ebfd27c6a67dfabe2809cb7c4a4948a4d64c26f6e0bab59e1f5c7bd40,0xa56e317021ecdf40baa2651a6f4a4b500a1a65fe71362515420370fa319ed70,(-0x2914e80fc809e71c6b7078535d7cbbc7fc5143a00de06e40c42343f40278733d),0x1a079a2433e0bfad44347eb58f02f273bad0e75a8332e41a2a019eabf28e12e,(-0x2a01c300af1e7f20fece1a17b485b54618be4acbb100db1ac1c1c1bc8de3194));
(true,0x29bc6d3376b3e4f403abdcae00f7fb5abccd2ba8ff6d54c8014474987c2d4d5b,0x5e2b0545325e8845898bb6746ea04669c5acbeb4f4f2e2fe36441f3b5b26d30,0x2ea5e44600027fd630c68954fc61d5c22bc7aea2feffdb1d2318c86c349df5bc,(-0x6bb8355f7a5d71ac0549ec98611427e5ccf84679226a6dfcbf0ff40039ed1aa0),0x23fee5b2bbce7c5ecef16a877974030068df2e26ba7d6b3246275a46302fa48f,0x21bcbd20cdeaceb0d8d0e65cf496d555289d3309336b6b07ea5b1ef20eda3b5c);
(true,0x25f52c3ba81ddc7e1fac3cf0eb318176cb77d2e944925f5c15db595f86cf6e46,0x66e5b700dfa062649f64bc4445197e3a216dbfdf70cfdfae87e018437da2f79,0x4e988d26310bbea4f207a560e5cdf4f5723fbcc0adb6ba4f3410e8514016335,0x470849684b73465a7c47f0304e01ed3c990be5094484d7ae6cfdb1e893bab1b0,0x1dc5fb5b0a42c76b774570fc8231bca87d7aabf99f357475163d7b97e4f69ddd,(-0x6d8dafe2749e88940d4a33d8676af99c5aac14aceeb77c70aa05120f87a961));
(true,0x2e423aa097f39fd8877f671315d0ac97e254efabb066aa6071ca2dfb19e98e72,0x2bd15c4ec312bf0e3a862a4214f91a090b0cdff7d7786c02eb054abe6ac6a2ff,0x1eac9c167b26245350cb4ff2eae8d707d002d7366172bce8b6487306568ef32d,0x6d3d242cd59d7f02f3e88c1900586534b4e2de8b3ee731d09a043b3ac4e2dd7,0x2c383903ffd82a643afd9ebba95e50c5f4e1d5751945e18c8982102c26c70e15,(-0x23bd1ce649a6342e3330e356051ff0db80a403d58ef89860aabd767816ad9282));
(false,0x29d98a5e988e09aa9280005d340631578ebc6737fef56ae5f71af717a26cb704,0xf8bd738bba7fdbde7cf1d1ae80dfb152303cc2c59bd6efcdca6b5629dda1895,0x2ebad73c09661bd61ec7c4859de5d4749f09e349f11d2df3d7346d3323f123db,(-0x25e4e4d96f11658a3c26f2282072be4fe89c21cf99415a352b619cd12f9ed14b),0x24312f57bdcaed43bd4c3e574875f04131c2bbb087a381ba7804713bddb6512d,0x187315be90d4b39b7efd95c9590f822f05eed71b5c47d7304a9ddd0019d33260);
(true,0x14cbb6033d9290562d6d8d42132cfd47fd08b2bcdc61542f67df5bd0bff18e2,0x2fd1217a0141b891c8fdecd351dfbee04256cf02f1e823d13cb2d5f7d7b8af59,0x11e553479ef110e5d00215a28e0198eb8e0b9cefca245d0ac6e35af040bbcba4,(-0xc790e5ecb3928e0c8d82673c0ae6a6a5bb095c2e6c9f3a3d6d2d5ff146d0209),0x8efcb60d3e9b743fade7bb7616b594526e0e4e703d0e002659ad773d49d77,(-0xdde2e23c7662ee4d0b5fd3797a77bafa5853c085fefbc53f77dc41f3c5dac1));
(false,0x24be04367ede3907f9d3cf1d18ebef6c56b78620f037268f9e24e4540192e3dc,0x6d4e3c398a233ecd52d8c38daec14a7fa30bf7d87b3ac4cd82807011f3b1bb,0x2725878c5b1155c9a103a243131449a065ad55738ad982c2d43f704612bdce86,(-0x244e45611bb7af3e4fbbdad4c3a1a684e9fdf739072f2cc40e4bdf8318fd7b12),0x1be5aa77fac9fd418ff32e817e2ee923dabf3d9536cad7ce8f1c77b348224dad,0x23fb476d5ea4db9a3d03c81c0548e08ba6b607e026cf1ad88bef244c0a910672);
(true,0x1f5c252e0c6d29fb807b56464c2b3ff32510ab753ea7e769e049f6d8335e46e4,0x4d441b8b40a032a0b52c5190828637cbd0c948f9d83a018a4c3b771ea58830,0x21117d1578a8bd1003570452c8e505a898ff708c566a061f414b9a9005cf38ad,0x32b9dac1eadb839d581ab07e58df2a3d87d5b3b02903d2538603acf4f010dc73,0x145293aa51c885e77e6b8016f7b54212d7dc0ab17e79803345eb6a79841d4246,0x14c353241a6d07b011c22db1f4a1bd485ee7473d44e47d067a85b076ddb91f);
(true,0x2904d764ad868a63c312128d5cfac63b2d449bb1e010bc4001ff8423cf2b778,0x177f9c2c48b777c0b330364950e5a109c7581ff9850c147d192af71ed94c46ee,0xd730a5883765b8a9dcd15e76e911785b3d73248dc12b30a75d8b540abbf6916,0x37f843f9e3d90ca5a721206bc5700bc511be21f2812853812e035d18f859150,0x22c4f2a6e2e77aaf8b7325f0f6affce9b55f30145f79e766a1285131fcf87e,(-0x13a99611d7b6ce6d7f3f4ea646588d8c21c870b06ff3eef7535a521631d3a15));
(false,0x17b287e59f438bdc4b42cf5a2e8534fb9f9b5fad4db8d397775298d69139a11c,0x1e143cb9c98129fe2f22af0ea284f15382ad59bbe75232ec491724e3bee064f5,0x217ea5c180406e85652d6239a48a33b67d98c41d203b10a8fbcc02b5141b648f,(-0xb81d54a230526ff41460a5e204de2e6cbd8a1e7b58f8427e3383f62e49ef768),0xb9ac4dc10072cdb128f7f56900383ab1521da319a902067dea7c166c1a65d74,(-0x338f5750a7bc8c2bc71b248107eb5ffb6524be2d5b5429c14ff626ad45047cf));
(true,0x1dbfb1889fcb8d70cf3aa88c606610534b771910aab8af44358f8136232b040d,0x12ecd235755e35a28298f925df137b8ea01508824b4517b42fc4eb3f69ae5bf6,0x53b6b6648a18cc8819a22f83d92155578506647cf9e092e69e7397930d56afd,(-0xee8466bed000b0ad88eaa504aaae0aa02acead5e28ad274225b45e675406e73),0x1249bc901825f031b40f533c82b0195fa67f68f8d17c79ac4fd93b08b55b876f,0x6db5ce7cbf1fa9e3a3acf9c56ddb62ecc63b697b434a41f64f9e736df32cae1);
(true,0x7d0e4de599e89a0bc21bc4d2bd7832bce267b1e16c133d72a651cf3d0618c88,0x16c1dcf5078f49c49c69fa4ee4ebc2c30276f1ce7813c91ce7feafcf4991338b,0x2330a185aec2392a21e3a61e27677c6225ff52aaecebefafc1470eed5f19669b,(-0x148377f5fdd5685d631e95d3ff214f5be9fc849f9dffe61c94dd2a1752a7cec4),0x1432c8266faf38de8a57d415c6f59e2304bbdbafd4886e1bce3be319d99dd6f,(-0x9e73e674a3dc339db87ae6004ec5d33028074c55ec7ad7dac4763b2e24e540));
(true,0x2cf5a01d89d359a2ae7b4beaef0192270182845d1d56c4427dcaaeedac96b77d,0xb96656b328c5ceafe6295a1830698008a8218344c792ac4e6a02d4849ce87ae,0xa7ec0644b4fc57b4ace95fe3912c8a1e3d938eaba6acbb438beda972dbec2a9,0x21481f74158145a0bc452ba89ef2d636ee0fcf72895ecc3aa87267567d23a0f5,0x29c5448cbde715d968c9310533c7cf3dc7bcf222d88b3aa2abf364992c320813,0xa60a66264a651841c656f07711208546aed7728b3dbf69e9d2103c5394b3cb3);
(true,0x1be7c36735c142edeed61917515c5e4373acb9307826dc2f53106b72b98150f2,0x2acec64f3ff33d5a79e6439b986f3ab29b39bf5f5f89f0d3d572392145c34c81,0xa5b4f305f1df4960908062c9744269f6000b1c7e383b6bb46b1691f7cc0c3ca,0x3c7ba74b18c2c3f41c6befd81ce03520c0a6f5b224344534302474a928dfd88,0x10177a5474ae0b96a0c8cd56be730cf9fef7887111a812af12f892bef5862761,(-0x1200d5c0f81eacb85a8a9e5fcde22a9e5be7a82fb6cc6b065fa321ed7e933b4f));
(true,0x2a930c420be9d7752987279c1f1505f995771c2c31e9eab166989a2c7a815572,0x278a4d433a55f2cb0810143ee329f6d7635d48072359646422a45066e8817346,0x2c217a4ba655ce3e3a0d6299711c6ce143513f72529d7d73c7218ade97be0b7e,(-0x5f6170aaf44bedf76ae2175d86d3a085f1ce9bb2c21071a68c4d45ff4a28c18d),0x2574d201ae92b98157aac7ced2add174147b3c5ed5d8bda8565f847a35c51fa4,0x2dfea975d1cdc411ffef76beb4eed708ad3163634baebe236a0356e6f132312);
(true,0x1237ec0a92764e29f1e2ad621601b8cbf79d5560527ead139762d2040107d2d8,0x136833e662a3f8598f3e88f3cac64a1d7aa4ece91eaf9dfd05118fd48114eca9,0x248b3ec4d81ef8b5876787824ead1cea00e8781ce119cb938fc2fe58fa9e592b,(-0x3fb1d9b15cbc96bd96bd417c7a49321c8ee0e8bdfe5aa0edd4db03acc774a6d4),0x6dbdcecc5845cf9e626d2b1cce4fbb8ccc0a68a1ec17e37c8daec8a6755de1d,0x794675c00da169712cf8038152f76592d9777a044813a1974617bd6ac394339);
(true,0x15e26273249766945affbd32c2dd606877ea793e57a60d0a43ed85f8739bcca1,0x29e93343ca6076de9a610f2bfb7f12a378feb2fbbe4c056246f6eef7c376adf4,0x2da0b0c07b0409a033d48651787e5efa7fb270b614f6c4c36af1518d7cc5bdc9,0x9b423027b95b1806cb1b342edb78be47270993fd6a5129bd071c9c48d70a105,0x9e59364ca5e79ba3dc3f849570785665565ad9fe9051b8094b2d9e659a8cbad,(-0xa2d4e38f3a454c4b5fb25b3831be59d0b1807d1246514cc57f74da7ead8af69));
(true,0x1571e7c652b64f803cd992ba6229230a3941a5fe9e4c4b929a7638806c22f791,0xf94461ec566037f6a0af0784d459866cd439026e5eb8322a6a62366991a9c38,0x361dae585d64ea897b0df0e496edcc507d29a9cc4995020a328ddd9da1bde6b,(-0x4474391293ca2c574c63d29bbeca11827fab0ee88463042e1957580b53e1e112),0x980dd1b0efecef500c170421f5101ea92a797d8dfcaba7e57beb917615f3477,0xbab41a3ad2558cf72cd082b838c5dcabd8ceca112905e7868e815e2e0121678);
(false,0x2018fc262cd5298575d3796c36a34bcaf4f2b2b440e3f8ef55a865ea082fb1d9,0xbb8206cc6373661fea600032cdb23e3b0e26bc414693afa0769e8a171102c8,0x131a0a11eb0ef9117c0ad48f2e670b3e17270477259f95c0a265a55a132b22fe,(-0xa555d533186080ce8f3a8b2c84c45e19fb352d37c303f93f6b6889ccd0a561a),0x154a3524a261712e8624b96675c2424e9db41caa99f1c39606712e550c1e3590,0x9d8fe45f07f5af088529cd8bf2668d02868b1fbd9ab2926fcd5c287d99214c1);
(true,0x1f9fa64eefcf029fb9e8694bec446ce594875e2f64f066da77ed299ee5c2495f,0x2a53b6cf2b76d5be6f86d5bd27f87d2378b67aa1629261076daf2ac1e0ac58a7,0x2098ea12fca034a1ccd4b0b5df4483eb5e3ce89e7dc37ac89f53b15cb267493c,0x18eeae6e5d534b4495fecac3109bba221d675cba7257882ab8628e62db58b41c,0x14aa6fa1af9b46e9d6e750bdeb299843aa5b151fbac95609ef87a3349a7111a6,(-0x1b2e8266bae89c8669ecd0e7b3303c41f9bd6b5889b3f0bab639ae88206b88ad));
(true,0x1510801c397503143ba34d09a7a21362685724d9e5e9a5b658a87edfa0160d31,0x183e3aff7d3e61ad88faeb897704d3fd391326bfceb923b490d5c787889bdbad,0x2168fbb589bfbe8ed0fa49699ac4837975d8b94359cd0ffa497e74effe5acb79,(-0x52b03417d062b44db7d57fde6880bb10e08326b446b473353645463f825b1ccd),0x92b4c939939e7268c3c29eb7c5969e808c9dc6d0b8cf82ff64bdcc00ac6316a,0x7df2a776e5a02e9f5ae80c5e6d3579026f695393f4118eed11a915992454c33);
(false,0x404c72b21c90840a957499653c28085d4f2776627ade19e07894002f80d0c51,0x278712b937598417863daf8104ff51ab420bf952408ea7018258ce2904eafcda,0xd468d7eeda8eb16cf97b6e408d23a77d53828f4860269011dd14e9af51d4556,(-0x20364569ecad3f00a4c8438d1e8e2feba0f3667c60ed0b753b0843ab26550e3),0x556f231d03fafcf28a0429a93201f34576e6e282ce236672bf105ec3e7269f,(-0x144f06fdfe4b364cd542aadc705cda4803af0aefac1e4dda157f50bdabb4994));
(true,0x17879a7b61a17c327d14a24949623da0393bc6202eb3a8e355e66a65d1478f71,0x1204303c7fea2c0920dbbc488c64ede65dbae20146cf59982887f30a1c20c69,0x118df95c4b95b3e8c51e1c443a8e203925403ad401541be25dc505166340bf69,(-0x53f38bbca7a14b66aa153ac7a67e929f21bbafbf2b430c6ce85e3b012af97500),0xb70dff27353275f5159f40d6e833c52abcce3635881e22816d511ad7dab9a1c,0x12ac109f6c34e28a16a04ca2bb4e936162c8887159db6a01e15594bc95a8abce);
(true,0x4ce96142a13a74d4549dc4a88a1a52d15bf441a4220156a05855f16b2981b74,0x261dcaa02ed0ad50b46d2218c9877fe368304c1577c028f75cccb7f7a0016f41,0x1a6233f94357c0993bbe26583dbd0d902132f69447e067c00418f8cf78a38599,0x368b0d6d2b369c77886f41c8f33faa2436d3d272b622ec0ee29d077bb2012e3,0x7a3d5b189ea08ab29d8f1419338d3501e1e6bf1d575ca3c945bf8d97d6221b,(-0x3aca6a8f4df651367c0c4bcbf00f48aa0af293f5f33825b1518b7a3e8169b0e));
(true,0x2d8aa5030be6913729bc2a6aaa3c603646309401d8d9f109dbeb8948ec639481,0x26d4ab127b2d8677c489774e88fc89605bee1ebe69103a822e16fa456e2b6c96,0x27ef3720098a3e9c55c5fabaa55e924efc0a5302c8b2fc48da9334a08aac55dc,(-0x2868bcd85c46fbb6ac7cfa0a845011c22fa570f40fb76c453bd5b6cb2f914aa7),0x2adbf5912389366d815b9dc33b2e94c867d26913e72f971c56255fd49943e34f,(-0xac1afe45d5f51ddf2eac8f627b123fdc01b366d8124502e3dd2396750cdb66));
(false,0x15efb1e5260a1579df2b950ccf79e5cfa80a02e23ca2ea7bc4625c671d25ed3a,0x4ef5e3f651090b61fdd9be08a98151a3cfb78850089695a45cd07cd09804cf6,0x27cf10c09006906613f725ed74a5563f82d2696fd8e3f90501ada9e76b3bc0b6,(-0x119a2a632f3658b36cc09353e296fc735bb28ce8f26e8dd9fb920ce5377cf7d8),0x9f1a0f6d4e014591a7e6f2435729e74fab9af49ab44e7da6e327e4077485b31,0xf5d791bebc21d31358753e1992ed9032d7e2608859a408abf23bc9d47700de2);
(true,0x1b49424c1e3f44afade93dee8aa12ac46dfc0b3809a878d7cb8d8099fa992b21,0x80edc266e9e1aeaeaccf070e7017608c0e35bd987e0e169a411313dafcd8dad,0x7695fad6d1d7edb5312fcf047c2bb45cea2c0680fa8f9dfd3d674c35d01d5af,0x2b6221c41eb009cda53bd9306f51698038191b83f641ebc7369d0eb58e491440,0xf62b39ee39f658ab3cceddd2ae891f37cb6b1d726f7e7731b17c52840182c18,(-0x1c2ccfb36527627240c8c81e632e8fe50295c070f1425ed82ce6eef84ad0b24));
(false,0x290e01a5992e687a1d81911176ca72f991e8c7c3adce7c7c244a3d4cf0c757f8,0x70aa77ff59aca4868016e45844669902e91eaec43d63ed2c7d51dc684a561a1,0x138062b5a9d70f35258f9f61d4224330de7c0139ae622138159d9a6be5d6289f,(-0x6d6177559465a080bdca32944f30746c73dc2e51ed51c606a556306152dc8f5),0x22d47df377b43781542daff2a5f576ae6e00bb4a29b0f5bbc968cdb5dcf03c07,0xdcc0ebc5b1733bd5d925e1f698098d3f44b192127dc29dfacf5bf0bf9bd51e);
(true,0x41fd67e6acb0ad75113dce319b19e92d68b30d2829dd20b00f5c509b917ced1,0x5e9639e60bc437c11d58a22db0632cf85313fccea3a603237a2a1606a970d23,0x2bb7e6b5db941243505841f3779b70b99a18c75190398ba709b058c55737ed11,0x400fb650dfc13513f1d9abdc48c5efdedad56c814d9018e1f165f4b0d550cd,0x59fcd16d1373f84de457ad64b09391b7a38574f5c19257b7d1bd7b2f38c5e4,0x18a75657c1f16295c5db8dac3cd76614f8ba26917debf8f3dd6f7661e40c62);
(true,0xb206a52b063aa38ce840e8e75e1b5536c37c01a24c8f038d710fc7c294fd91,0x511b98e51a0937e512ec48454e4a6ff46b6c46d28db9a4ba79b07a707835ef,0x25d7214b0e980bce8aa8d685ad1c95a011cdbbf5d8dc30770e5d1d011175657,(-0xe8f91d1bf0aad2e631d0b0bc99b7641d6f96c521c62eb9e9cd1bb2844aae9f),0x28eee0106420acb4ab441138546a7a89065eba09d74422c368ac493e74ab4,0x149523afdb6a467ff85b6061d1712de0bf7f72df8e36a134c22e3e5222a894);
(false,0x2238acabc51d290b68cf066704b049faa0e83f514e6796e5930289e896aaf9b1,0x539fabc1326a0707ee6fc66be742de0eba2c1bf5643015f96b1fe450e7de2fb,0x13bc3712627be5aef71e10199ece565fd5c01a66b08ef457360ba2aad79defff,(-0x395b73ff9467c485c5ae9e5132762b348d6938ad0ce28ce5305123c06e5d7f),0x18334fbfe31970cbddb51623f395d771b52835b8d220d5b093478918cd1653da,(-0x378d356ff15aba25f27c8c0d0cd00f95f7ccee80aad6bf1989c00a8fa05344e));
(true,0x1d50b7f61f62aaecf080474a170a18fc8f878bd5abb45fd350628a175d063b95,0x1e16e77c3d0462a453131fbb150fb900030a9ad4be9822cf922a466cfc7a2a5b,0x136a1cbca7917ca55cbf8836800ff1a181ec702f8296f8ab3d3bfdea68641ad3,0x1637a624dd74a6936d8d4b9aec951481b52521104623a5d455c80f93c59a629d,0x11c24991ddd91869bbd42707b057f407e9e54ac4ee12be333d4f06d63f1cdc58,(-0xf0fcfa4c7bf6eb7ff8c2fad535bfa901413261eaa855331e47e1b235a54edbe));
(false,0xf043e86d7c2a00508c2ba11636c96430c4d9a51d3ea7c07f60dc4ad6f0e0e23,0x1b1eed025478bfea9284fc558b0b6ef795a1c8a2004588641a5e543377ef87f8,0xea274ad4c9c0e6302940f5d77604493bb6a2bb5f6c88a1218975b953fd6b50d,(-0x9564e6102b222072bc4bad5fb4e7c46aa5993a6b4eabaa61154607df431731b),0x4a8ea98a1ddbad7a9f2e2bed5dfd6ed75717b281362bec6841b37d2290c2c63,0xebd4a7286b33f0829cb0e67f838122489ba28c31667003cbc1d0b24d6f958f);
(true,0xed1375ae600821d4acb9cc855931d7f067976d471e8b52c3abbe3f29537d838,0x293b69d6080adfe7fcd1899066fc890d54dd266b98072741a48a05ede2f64a61,0x1c6b4397ebf83b71d4060cfeb3f172b3c2cdd81170078015e05abb2faa9af98c,(-0x24a30a44cd84ce287b4e9a6f5e331f26d193c3f59ddd6784f36fb51216951470),0x4897513da38e84e0c0c2fe753aacf7434bfeffe3dbaa47605637dd33b5ada19,(-0x4521e93cea117542acd5e329f7e2be77e79389690ecca71965dd01a5211ea67));
(false,0x1a188709e5b05d2241ce5dbf23ade6d5eaeb058705ced2ff50160a10c6e51551,0x279f02bd00a2273ce2663dc6d01e54a2814b2509703c79651c825ac6a30bf870,0xc91d0aaa619342f9b23e769cff3030e7848055203b41a69eb51349857317fd3,(-0x163c1ec6c249072d8a9e2653dd51412fe3aa6a12c1b98ef5627c85cf0337ed7a),0xe128bdabaf1e2a55d103f01f79d9c892ca6a89162d42fc22f3e694a89c66439,0xde6481cc3282ae2844955e4c195f3824c3af7a63ad904df0ef12c98249290e);
(true,0xb610e00597c96c1079176489bb7378a5c49024685c120b102e1efb6bea36d25,0x120cfaadc2927e79221070da34428ac7873ba9ab63f905edb738af214d1cb9d9,0x2b321e0bf681ba00ef0ae78a23207438c77c1008439826da5013f0bcf60d166a,(-0x5b68ab322574bf30dd3fd77ee2a318c120b557c18d111219822d4397580bb6ee),0x2acfde2fc5128606079e23725e4eacc66d029709a2574f30d0b56c51aff0e60,0x5127b1e86e69b4d2fb837f0ba6c55d578330ccaf7fe9208f4f1e9d7b57aedba);
(true,0x1e1ac59502c903441e65e9b29d57e7ef8cae98bf55e2b3725a377cd1b58b246a,0x2131bede48a5a5f0e46bcca99b38351c9857361a15ea636c68e4b18f8a4c8357,0x1424e81cc7d0b54046c571950e8e6305403c37d33ed29826d2df0478983cb8e8,0x218b7cd1c421481f62a82596e8d577b565e165518e6c3411ccb8cb0d1d1e64e3,0x12ba62fee1267b1e29129debc70704d4ad341c234641a14ed20f9278eb96b5cd,(-0x96bbd046dd35a5b7d83841537d3f3e945e6db5e59fedf00b0dad14ce136e592));
(true,0x1e4f85c08fb05978e54a2c6270592522f79527c3996b14a788a7b174dd063287,0x2fea7c927621e26e0ed6076df4ffbdb5ac63e53485c63fad94ac5fee0787a66f,0x9d99014513203ead22770d2c957b4a9a06809731f545e046ac4cea2a6b2d4fa,(-0x2b12e9a42573cbe46b871536e8664a10d832090c637f296dee3550e9a30e7365),0x12fc3e666c8f615f48ec2656b28fd6f58965024aac78492bdd7368af7284334c,(-0x938955a9b32fa1ef23e069f04409373cda952f1f6f265a82949b8a6e6fa2126));
(true,0x979894e03205744b1603e68c1a98a80e4c94e2d008e0ff2d495d3681c41819,0x68cb95e882e0508249f2a9e7bb1895daa64dc668e0e268eb28af9ea4e8d3589,0x2ba180f56a7fdc38245ccb9bd5948070045a3938d5a2695df296115bdf75f511,(-0x8e17e196f57f500a32e424ddd8b19bd7d3d06a291beded4e9583ef8419a65b79),0x1dae6cf5b971374ba3b753c13d9c91617c52b075f38f292825518f3a66ca6,0x819652548b5057bcdc1650cb67b4a1782b27c9fcc1ea185bc2debe6a4239bd);
(true,0x195c5802e045cb7aef280e15a2c84df17a71e166d93733ad8fe39d0f5bbe7d94,0x2f76ac2bbfd4ce3c092fdcdecd057259e21404b1f59f1104dcf9518f952a38fe,0x1ce8b0bd1e2e66ec4dec6348b0268db8ff38d92f61ed27693ea8612373694455,0x2b1263fd86967b572bac5fb708e61950e2978ca654dd767dbb106ac3b897dd23,0xd4a71d9b2f9e77cf186b79118f2df507cb9abf891bdc700a84b7a4e5bf7ba80,(-0x157115e8392121769813e1ab4096347caed7f56bb9790503d54ca74863bef2a6));
(false,0x1915e3020ad3da0547c24260c6190f5193dd2a8d1835e6a4ad8f779d3a8496ae,0x962ba09c26825836ced77ec4b19cc78d799afeaa6af3db744146a6a97d606e6,0x2b6f54efbc0f5d31a33c2c2270072a78fd14a309b9813730ce100704f1291444,(-0x189ab38e55c5586890bfeb773c2c10c8bbe8d9990fafda468d9f1dc9bc65c2c5),0xd00ff1e0cc8a732f0c2761c0b781f432a16a7bb404cb0f2bb9a9948e2570229,0x13bd2b398eab4b675d263e78904ff96f5142d71ea79e26af5522e8790b347e11);
(true,0x1f278a36a1a78529848782949af9aef8022a17ef838e20d96df589f656b640c1,0x1219fde300a30c8428be2cdb9626dfc30393955f6567d60f9c19dc84e6e7e022,0x7b39ea2e1bc516f30a0f4d83b6678c0d1a82d5f89f82be70097762ff90d14c5,0x32771fa1648b62f7122106a7e046f83d567e8d5f30aab9880561ecb7bb9e3e84,0x140e9e86b1da45fe26f116763e939028370d223dfac55df7cfd5bf36c5b81d55,(-0x59c7aa6577a274eb0f508088f30b44ddc66a98ec216b2bf8c4399429ab14513));
(true,0x2a6a13f925fd12d91e07f8a654852b677b2788feca31a4f3979e58b7b2c5d60c,0x2ffecc6e0801e3fdf70f059c18a4060587e07ca9ea1cee0f8490d48ca3345115,0x277ea1a7c7714c988ce815a23669f15bf04ed31daa8682a858a4235f94f7c090,(-0x6d008eb1c0669518eef8ba34c48f78f1486d21fe6c4f565e1d1200ec8d8824c),0x252cddd1967756d6da3ac62f882b0cf7499a70c799336bcd0683f33b0fb82691,(-0x1a33844c204c9cad0966783ca7fc906d7709c2fa7b09ea410b4f5266b614bfff));
(false,0x4b258b07efba57d9e516f398d9caa5ea94169478fa74cc864101cb6976976eb,0x210301ad44cd6e3f5b5dfec6d0775a4bb06239c1af0a5df46bcd842caf914858,0x21a5df53132237b9167b07f52c472eaa061d3990a2fb1e1046804e620a69ed94,(-0x4a87e9e2228cd79b91b61de0cbf676928940f918da64d8813cdade33c0ce3c2),0x74b1947e2ab625a4a7b548ca706f823f9280adccd81a30f4192d102e1ce4dd,0x17448582975e33563b26d7793e4dfc095a0140e1987a5285d863067a9d2014d);
(true,0x112b81a89b1c57c0e16c4c90057f8d5409d5a2a63160973e841b331e8bd799a3,0x17fb78775403a8d098da16c8b11f8594bd7bb03c3304ef355b0586aba6f5aa59,0x18d74129f559e0728deeae52c07ef370af8105a9d633e82eaa81774668c3dd8a,(-0x2baea1c868dac840164b6924404bbcf9558646557148d6491a0c0f619bef5978),0x61792df8fddeaf9abd2a633ab603dda25a473dbec300b5be299e56102584740,0x33428812eb81d22e5c6238b88b67bec287b70c03b17d5c9c2a6f3fccbe42449);
(true,0x9c5c687f1f3889e11dc89016d0c8d0a5527c09d63b2fee40825e8d30f6dc141,0x2edee0a2dbfabc305053e5c8852f3bc828bfb688ef9e3ddbe43ef9dff790200a,0x2dd7fff2def9ee911477b2673edb7c8e0f175151bbe85318bc5f7674e0301791,(-0x199f727c1f0726b0dc7a30ec679caa002ae9c8eee8f887642159a0e5040238c9),0x1f9399224910d200f2e5f90e075f73dc04e2e91768ef0b9175a0d49dc416293,(-0x49f497251f70ea82b7f5cf647b1c2ac462a824327beb43c8c6f6fd052d9cd94));
(true,0xc20952c118eb9187ccf1c8d33fa608ebef27f0a2334b99e0ab6c536289d2f64,0x2996df09039564a449133837afb21ef03d69d60ac36c1df5ffe0354e3e9bc9a,0x2e3c465110e6c8b2787abcaf325fb8dfd40983129b2fe97511cf3cc2c30ee3bb,(-0x7136d96c26d1ea9edafd6f135b3fa543b8a0d3a071e1d0749b81c6dd122538fc),0x30a06d8e8b38337c3ea42d162d4fdccadf1bb8a8568317f276834861cb3f38e,0xb183a9d394d3b327393778e2fa719ada6a225804bc3885ea1ee0f74d66419ec);
(true,0x29c370ecda430fbf5cb240ac975f5b6716f3523eccbd169ddf2d12df6eb22f2a,0x403805ea3d8a32cadffd699fcb9aac47f87e0b1b60e7b9ede0b7cee86c37adc,0x2017d738cb627666353e703a2f8cef4384a83ea819b0c140736134579f3285e1,0x4f62d104ff67b0116d9315911694760e0d0d9c7302463363973cfb3d39b74f10,0x240b0032a09ba679e2203f186b5fc259856a992373dd45b8f62b3a4fcbaf248c,(-0x1387a547d90de61d8fe7bdc93c352dfdbccf3cf79a2ceff74459df9f528c610));
(true,0xcaadf0a15a58f18b77c537e6c98241a47c4d104d437c1bf39dabf2d43313c6c,0x2e82fd179f850dca69271f2cfb3310ca6677bbc9507aa2eec5e37f4ce2f914ad,0x609c0cfe660777bf19a3816c5e6871128a10db8d691454757f043fee5a510c9,0xfcda237cf9159cb10ac2f7ecc8e89890e77e6e62fcace9942f9c89497175818,0x350e1ddb2178b7c9535f8b502380349cf6660ea593461979e0ddbd5a4b1ecfd,(-0xb1fe8d847a2150105d9c3b1a10a76c7854ffcda9f1b247e0d38ca57e335a57a));
(true,0x19c1a075bc7593b7c8907a50e511976caaec45e8074f4cdb3f51ddb27012f384,0x19777e372f97008ed25848cd22971a346f04c1485a75b807bc1433637916521e,0x881328ca1d4d57fb2197bc693aeb7b8b6f83be014a197f7f0a0b50babf95b57,(-0x7fafac026797b6aac50921f2386d4033a7cda6818c8bb0498856735ad753b075),0xdb56e7e9a51c092aa3cf4edecfaea88e57843b8851a5c6e5a17820213de86a8,0xb33791ce12f6da60684bd1be67c07426e3d2a0b3f7b01246d8c2cc38f4da684);
(false,0xd1c4ef7baaecceaa58721427001cfdd0086dace0daf045f46e91632887b2259,0x64f3008c7f257ce3fdfd2332b475460481d9b078c20528b20d69afe3cfa8d75,0xa39a42ec34a18b3837a81a03bb3d6cb44b11e74e44820cc0dbd956948c7c8f7,(-0x6e64c0e5208cd8fd846ebe9a826b02a22442106b5ecc749fa5bda416eb1ff40),0x38d4f44e21fe850e66a70e10985899b8a8f0001183f5488f4298167b85b5c3b,0x530b3977f4a7e6c976eddc78a891813604266c38f06cc131b2301f994523d75);
(true,0x112f8842639ac7b70f58ea26773ac9996fccef0ac371e20d69891b6a2557669,0xc972238103951178be295eb8b24f9969ee2e2d0667f24c6d303b6e8860d1cb5,0x38346a1da4e12a14aa0a23e3d4c724e6f57dadf9aadb3d692417d4a0d95ef10,(-0x2038ff1fa86dc2a70064f287674d2852f5b5865f3b6c20c30db0b04d7f65c4b),0x61a6e8b8454c44f53efe3b411e2943162b6f2e9399788577bc762258875fe,(-0x23b0a12d27231de1a80d906c55f591712acdc73923a3acf7ef8795cd212401));
(true,0x223898e14545ad37ff32aea43ab66a0353126d0f1e2eaf9d1cea8b9bbcd78bad,0x2822e9e4bac82d2d8b6d20d22a6f30bc619204ea187893fe36cd7f016359c4af,0x1884a53e5d6f4777f72310d73a910105c664f936a27ab6be5172c0834def4e67,(-0x4dbdd81661a5b670da11baf5b7f0132fcc429383b5279e34889c9b928baaadd),0x183333c222fd878000b8597b4d74e8bb6904b213f9b2799808466368cd972cb0,(-0x137ac89c6bfddf7b392b2cd3c42407f3dba1d89234601b35cb434f143d9b35cf));
(true,0x9836d84d11be7c719a5e1e74c9e64c03901d04ce676567b978a0acafa57178d,0xdc367c5827f9542a230ea055543ae2a3ded3315aed7eca2cd8b8ec349a2965c,0x144dd4d282a1a0594d188fa13c84fb454a9ea342400585327bd8289862cacdcd,(-0x5a3a4ed7503c3bde7b64bc097e877bcbf1fba774a94c1bd94b1262584ca537ab),0x1dec8688e8cbf81ac14ce992d0a0a4a6d91879ddd7176380fbae77c399ff819,0x52f48e9b0283a28e5772f175b11e51886ce9b0f4d43c27339eff0f026e954e5);
(true,0x2b9cb5e2e8af24419825950e9fcd82fe3d81391a267f354f12e49ec843e567c5,0x2337f3423b50bc50e4acbe9116a0aa2a524a19dbdb231edb88e4bf28a6d05ddf,0x2aa7cea73bc9afabda89b826c56b8f01dd1f8f07719088af1d0fdf79a1c7ee60,0x18da90b4fb36dc18f55bd373059b9fca579e2aef635b1488b67f7173e8373e1e,0x274df82b0bd39937e975730fff8ab45d389406b99366471c994fd5eeb9ff8dee,(-0x13560b7fe6becd053b91de1bb0f01a251926237d3561ad961fae94fa08804d24));
(false,0x1ed89ecedcc5f612330afa03e44fb778e738e9ede665950d279d97b135710a4e,0xde13e5b16df5827eb3d2a6804fd852fbacbb700b9d89f68038111f930f1b286,0xdefa5118687d48ac99d648e3635368fa8051b87d34a3da4b817386370dcb43a,(-0x1672febcb5c082a2e5c5dd62ea4e280154e3f0fb7ba1c6cfdfc2dcfd24a8398a),0x13a9817ef2bff1fc4962a70610d5dbf1d7b6fd13ae694847056953fe08f5dcb2,0xd9a114e43c122669f3951b9af2ead0e4145891706d60ad6d95324321a6c415c);
(true,0x100f90727b83e58bef055543d46bd320011f44f2d18bc7f8e534dfa506df12af,0x10e429ea7a67e89b664e6297598993b4344a8e1d39d99604631b422dcec6c5a4,0x181a53eb7527c46d927c2c529602bea78c52f2d7408887fbc38565e4d050832d,(-0x2b1501375e6dade9bfb0ce6fd9bfd674bd8a9166e263fc443786f877e656be0),0x554971204f9f45e5c6c541599867fdd07a5fdb3c5de88fa3e23e3abef142407,(-0xffdc7bd807fec145c64d952c223ac07e34fc2b60f15468f03f1ac56f86e44f));
(true,0xc5d4bf3f7020592cb28f1e1d9f1d0f6dcadb4c2ea7d30b5e0dd20f0cdeb65e9,0xc0fe0cfce581ab2cb0c463d2163d85cda2bf20525e7bd5c42c892c12b247114,0x1aff4e04cf738d11f7c860dbbf7d1510f71eff373702afe335412f403b9db47f,(-0x55ef3fa58a83a03e553be23fb333c3b66dc96fa7330528c6bc821810b94d78a),0x328c13f0d631e820d413e92e283ccd772d5244543ade891134140971fdce723,0x13be11f49752bf07ce6f7ff9d4702e53dc0a26435fa9ac8583ea667b322977c);
(false,0x2c564adaf7ad7671c9fb08f523a86ddd1e4a104207e9ddd7194f939a1d5b681,0x63091b86612661d4455b13c514b99989ead5d19eb6583b543f20fb21988b735,0xb2a39d003cce32c7435b2ad7f2ad16680caf689a9abfa36ea3c6909f754cb50,(-0xb0d2538c1f0c26c3aafba46c2ae7f43b93ceba44ea6f48c3ad0cf831b76a3a),0x289f40dda6211329b465571a9bf7d240818135ba16c1cc75060be941c43511,0x56158d21c1cdaa97277f73cd9ee61c9f7d4abde59f5af59b2c8c54597237f0);
(true,0x1c73951fd06342aededcca39389cb9b429ccf4af9e4234e15a6f77a650f17085,0x737812a14867d1d70f794c2d07dd33289825676938d2b6abeb9c40daf268eb5,0x20629187c38504119a7ff1e2b762ea366c2dc5d94f3400c33cbb90f219bbec92,0xac0e453faeb42b2d69d48bf739a3e5047250104b0f4552c52864e8ec1eb26a3,0x10ba4f7a71a4cedbcffc72796a00b33279bcc755c61acb1be7a404f08dfe6d36,(-0x9a971969df649572229828709e9273a9964f363143c16a47a22d805329508e));
(false,0xb0f8716dae3087b8bcadc1a4daa361b6d48e83e54b0dbb9057e2573520f7b5e,0x49d940192b5e2a117e9cef83fbbc45dc2b04d000bf05334dcd041b6dc225095,0x1d8b77f752db75bc959919cde9bc0329cfd595ced17aa18730cc101e35937b55,(-0x1a64627ea583000fff6abf01506b80681fc763695acffb91dc61d4bd1910238),0x2872fd5ac5156f5b118af7ec6d46df89b49287b8c24104cf020266231c0077f,0x983508f80312686c8009c5d4ea402addbaad1b6143acc80033c3f504fe21df);
(true,0x2c52102203997f74e21ebef4f9855ebbbbf3b059c77108b8043265086ec26628,0x120594c3b6e22eca87faf5c779ea2ad32aa91b623f987e62e46d8de053b5bdb9,0x1d3e0b10c6a5d607982a3049006d04eea3082a95adc732c6d5118e5ed50464dd,0x34cc32ae4e140e5c10d0599e0075d862faa2c5c371a05a115466663b0856c8f3,0x2897813b967f0b523191fed97ab78a73b31227e39d95ca8fe657165ff07f983b,(-0xc4743abeb6bbaa74cdd93f49359b9f17fb54852a4fd2eebcf5dc21547e16c9e));
(true,0x2847b34ec409bb674c4f794642c7479de7c66ec8c03d3afa08db4c01e63dbbd3,0xb55afffa3a184784eda117fe127772ac8eb7fc80b2b1ff6b92c88dc51071bf2,0x226f678b820b3a66a2cc5f8df541876e7a6d5d57a616a8a5f3236746ffcbe395,0x1c8be1b81f8d833c916426fd7b8d2845bcfbe1074f94a58a6493f738946ee46d,0x2187302d625ab2e2b97bded77c05bb4ea0de70a7bda8529e9377537b0d4631d3,0x590ef6a65ef37b8b84d63ee9b503782b244e0ab93c4ddfc96bc9e02d8d49555);
(false,0x11769578116dc06f0c8815fb3d0a31b5419da0f1140dbb0fb8dc7d81cbee1e23,0x2697889247328d1b4a8f639de07514afb3e6d8771368f43086ba769902b0d36,0x575b33d6d15c3161c483fc5fed634a4390ffb0105246b4a8ec77cf74e83aa05,(-0x41722b9d00d66065351acd920838b309387a2ee79186226a15304c61e7620a0),0x64d4e263d9fae904bd37049818e36c3578aa6786c17a7a72dc436cbf24ec360,0x3384ee3a9a1a37f3e27a730755adf3ba09cb4eff54714dcf92d4bcd06d47616);
(true,0x27a7beb14015700bc15c7155d27576869920fb9092d636b17fe7efe1983adeee,0x7063c7e55ca6222cbba1722df805c4929428378de8e0254ea1c88cd3a2af6af,0x1ae0816b28754c0cf949aaeeb82bed7c88c8aeec1a0a8e802857ed233584cd63,0x89664e5784cc2b72696a72234ae8f348d5e84ae134ce56fd672aa40beec1fe0,0x207ef7cc379d8b3d8afdfe09c553c36df23c2ebde946efd803bf51a629b6db0f,(-0x3c7979ff300fb8ad3c302495efbc476eb6ad199cc4274b8889d7518621807ea));
(false,0x174ff468b3af799e067bf3c0bfad1a53b9ad031e71c155538271db67125c1ae4,0x248c0c1bef4484653d7488b118c70bdd032114273322a2ade1cf3d9bc8f74cef,0x1cdeb2d9cb6742a492831a9cca0a2f9c54ffd8d80da40c85be0d31589db6687b,(-0x36248ba75bdd1e5d3ba33713d6a4db2e7148dc322495808f65d32b7d566b131),0xb3b021e881e8c594e094058c766b175aa9dc83c6464345e6889386c4b060187,(-0xe38e83cd01e42cb4bc65397c1fb58fa682cd67b8ace075e97d3fc750791f932));
(true,0x2d7caa69d7a1116d8189a4730ae3df7c95e6b81669dc9b6f1a220d195c110444,0x275780d63e1e4f369259dafc3078671feabde8359b61a1f3839ed1546d8cc796,0x12c3c572baf8b098e37146de47f80bc7e210133371cfbbf457d4adb07939ba49,(-0x1c87dbb45a40915f6cb64c9c43a41ed24057467d603d1185052fa799a84edd1d),0x2ac1a9f62a97a17959b2db295dce04423d78dd1f3912fdf5f5402050a5ae0884,(-0x2a082431e8942532aabbb526aedbc9ffc27a7c522103aa837a29a481d1823e0));
(true,0x2d0030544527548c1417669681f6c2a3cb0fd45cd7462af3837a3f96ea78ef79,0x18f75367480967202a1990974d2c244b90f82a395ae48431059a9e2176134639,0xe2d06c9d525a1748cd58b73ca8e71b89292f5025b4feb29039c758ed61f4638,(-0x3d0da5162580b01b358642611a7dc30f592b335790f4d32fc7a89e7dde7ccb06),0x29d8e7ac40d99de7cb040bf08faf82d90b960f9ce436123b483d02e7c3f455d4,0xd5e4974885dba7b6ab2abbb1089d6b5f50984fac517ad2e562597cfc80fb6ec);
(false,0x1c4cd1c2441ce47c4f00dae4c1140fa78979fd3876250ca4b837359e60738631,0x2261ddeadbe533abd75d94672da9f7edb9c1632d7a0d85bfe2e6450411defbae,0x1c48c30dd1c4d5ae1b878bbcb2d7a4693ed7d1429606681e3048ad749c34da2b,(-0xe99b7e90729b65eadce897a797dd617956af37d9ce21b638094f37b6c082a6e),0x108cd9d6cd9eb904e8c7ebe0d77dafc110ed5a6a66e4b273c8229409ead4c93f,(-0x581b612cb673a4f89a63b88bd7915c011cb6a62f56798a249a31c9c458ddbf8));
(true,0xe45e87b05b2269ba9eb8f94db1c0d4a2435c52d7e78bc8dc6576ed6446055fa,0x44d36b9808774401a32ccb15eb38483d00a05a426d8ea9f7f1ed5f0879c96d1,0x16e793b324ce5e40a1396dc2d0117d97ba689518d9e16a1409fca89318250e19,(-0x3899d3d64e055ff1ba1bcfb3c88eb5f828de1596cec828b76e2f86c589152cb0),0x435b6a5566c1b0907fb05b2db0aa76977521a52bb669764edb961924cd5c5d1,0x8df4b1dbe3741b102f51894845db71e1224dc530b8108a7a225be3ebbe71202);
(false,0x2414874c99f43fe495655d9a6f8ff5becb05bd3831f93a4b8c77a897d81fe92c,0x115f74710fa15d7e310ca2d37da7303d07a278d3d082b54c0b955883dfcd6d6d,0x7415eb017c394e63a2d71e83b4241136ac9cf9915b786484c9985cd6906307c,(-0x3350c3fe445ba98798fc6f95f30222e2d8bf04ac8c1c074be6d2655c6d1358f),0x1ae69ca7a664c054ae146fd8f24c3e915959490e5cd57c3f8dc6c178e5e40ea7,(-0x9bee7c084ba5035f4a8a577e742aac7ce752c1b2d6824d62b1d134bd9ac35f3));
(true,0x13ccc983156e70e4a6008bf7de3062ed1c94e8fa00eb63ceab61d6bddf15f080,0x523f36c79c5f49f0875e26755a9bb640e27feeaa86536bf447c69320eeb213d,0x14ac1d670343d47e24de76119e728d0b17a87c74ca66080ecd510208d5afacaa,(-0xcc60beb0ff592dba0f0e5509dc73e9ceb84d645318ee740d8f7b2198d46626d),0x819f09e6f22664d20d781feca464c9fa3e774216092dbd602d6b3b2d6e88d4f,0x50148765c107a3dbe87dee445e8fc5e78ccc4b6fab6fba00aafb4ee0d4d3356);
(true,0xfd96d3981d2353a23fa9147cdd2d1034a067430135caf1bd6da7a12937ea35a,0x2eae18f26c4302c51792c551a39360a8f1c391bf2159f8965ce124d48177e0c3,0x16a4ae0c76063ade11ac317db7ed9432350dfdd979f20e14a4bb177dd55b8740,0xbe7314dfb44d27f02d6ee9c6c22323c924be7d1323f2d1607acf8b69478892b,0x530e423fccd198761b9e4364a2e2d18d5c8c4c76f83f83e921f128b93a79be1,(-0xd9ae72bc0696b716cf61dbfe46a171196bc828cd1f14e80d09d3b5acbe777ca));
(false,0x14458cab61a97566f2487aab4c163600916409984ef63e54c639a197f58de65b,0xeb8125301f747a037cdeea6489fcb30e331cf160f83c807de0515371f0c6281,0x223e28982a45973d2d5fdf1ef41502c4e85b0c8f54ea999d7355b0405e823666,(-0x138dfb0accd484e7947a86615eb4f2733eab9929731b3a81dc885c6ee6e20488),0x87df069af3a8bbf5690c9bfaea2ec92c06d125421ccb411fe6f97825140504c,0xd63823a941ee5aa52d8a45b14c934685281d6ea16eb7a192d9b9caca8fdb9b0);
(true,0x15bc91ce76532356c9069b9d241ff98aabf7bbc273934733bccb91ecc95f500d,0x2c93636de30e35e6a40072c725bdeae94f407537dd58214b5d2ecf3535384246,0xf0751af657d0ea75701a5e286f5c91730521ee54d298713e97cbe4896d3032d,0x1154d260d8908fbcbad81c97bc7f4efb1491b2f2cc846d1c2dff70b28774f65f,0x9c37d2816bcec8a384ebc88249fa53ad41010b5a1ef5385da3d400b5f96e817,(-0xd69380b31b87b63399821bbf6ce59def293615644fc6af9da016f0644301ecc));
(true,0x22ddee6aa3d487d19122c25e9c02dd175bbd0ede00f2d0c809727c493a61e2a,0xa3d4983e692885e902467bc45f477837bd24ec57cd0c95088eda27df35678bf,0x10c01a65b0f910476d1de7fc3ee98f5cd92eae5fecdc05906299236bf203c7d2,(-0x79d404fa1403e9e8c747c5f578b9b29698e911e3ec3c356b9195098d23d37418),0x191f3f0cdcf60991bbb6e1c9756383bee929c117b742c8def9b25033051a1f,0x18bd6105d6f97f694e6dd0afdb05bdd2cab81716fc1c7e05ee8b618f9598721);
(true,0xd3ddaf67dc486c4f4bdf6f55dab14986d79ad6d20a4dc2e9870d75bb4957d37,0x24f4d82cb09b554afadf9106897f92c924b9321565b4f4c32ca57de2cefbad76,0x2bf728f7e4264fc5ed5a3af80b9f06041c201f5b5846d8737efeeab8afa91241,0x2aacb37c54be746f6fdb6aa8fbe37ca94324dc38799c8b045ebed94d0bb5dff,0x39f93f06c31790236902caf12985707fd8301308ed34cf99b0ecc360e47e0bb,(-0x74f8824d40d9690331415fbf182ee700818012382891f72d8a8aebfad5d567c));
(true,0xbba0dfca1d05b6f7c9b10dc8031903c6cb0b0265a2f5553092d307c10bfe65f,0xd43f5d3b09202c52ced19907a13531b4445e27d6f41b31887bc461669c2eb83,0x11755ea99a8c384e279c59f8f35f214471f3633f9741366ce33e6e585cb0c19d,(-0x3f5c94990ad862ab6f19b3b40cf9142c2b4bc8cad17e4a72e5d904e4f538c8a2),0x2d77cacd45dd7b15d3b0cbf2d66aebbed8173cf263fd04a5cb1494350bf499e,0x5bdb39b3c9d3e4e955022b8f841ffd69be1753c7866b7f37ccdd8ff5f6799b9);
(true,0x2abf7e3ebdf4d35285e41a6234121f962a8382259b28136a42d14f377d60e1ab,0x28e54ab84ee8662e8fc7347b6e1b67dd829770d0b98e1441da1be47d7337f615,0x2608cecd6770358db56e47283a11de7e593904e2652e2b0d5ff6ed895d87675a,0x13ef794796a94c75da8080fc052013b6ff2ab8a010114d3cd05c5db510bdbdc5,0x25c32f31ebb259e2b34410e1e83e5f38e3ac9f73f374d3a3fe1b9fa9055fc2f2,(-0x1868638cae36633078e204ca6c78368f81a78f4776877b524a2cfbd5f2c98c1b));
(true,0x1e658818827a3ea7092f30d3ea6fcf00dd2c4709b3ebe6b02f80377e16760c0d,0xa1d00f4f864f76d84f52f197bdbeb11e3666b55bad06a55055a8d9015ce5079,0x1ab30a11989e36ea86c426e7d6eadbf1ced7083e2e7df7f79985b83bb85f1a9e,(-0x37e69091a73f14b1c7451c6c28e460ef9ddb9da06dcfed0d80c8a72a8a40cd41),0x1317daa63c4250c8a78d4216a185f52ce8a9323862338b67dbaf2370cb20ceca,0x1355e2f47fb5101e616a309aa78e66b288f97dcc8857b78ecb65345b74b83b6c);
(true,0x1c614d4f7b4945aad1d9a545bc48ef7b3dc682596e9d7dc3ad697b3bbf0acc94,0x112d3bfb0b87112a3251219caf5d4f56a659080058417ed14112d9d70254d294,0x2dbf20f38f81af11d9411e2b95f0d6b4aaa72c8450310b1da7dcb21a4c2ae477,0x18f9ce597147459170b84be45b3f2e2f283a475c35e14e2ca3b5c4281044d67b,0x10a4d77bb81906e2e7a79a4fcfd35ac01f29cbb5047cce328e3ebbe30e684aa6,(-0x4247689c3f8f129bfc25e62af4298d00e216c042cfaacf9e8d42dd9b27ba447));
(false,0xbe6c6096550c2002770abfb60911248c0d815e2db3165e5eb9c8ce9abb710a0,0x25214b1595727c487664767b454a8a211cf50342e61e195b3da9d926d5ba41e4,0x61c84104fdfa3f83298fb628a7d60e5877320545534b21ecf1ebb43fba9288f,(-0x439741839003936ce812961c420381677ed6e846c9ed867cd4a90140c3dc6bd),0x2ed5267af92b110509a3d6236eda0eff05bfeec55d5810ba2426a65d6fd3bc1,(-0x4e845fa20ccb8fb9d3d7ae5379aef3d0bc902d7f95c83b94473ad32e0b993ca));
(true,0x22eba99cca7cb917e62dc8b24aab0c033bf39d54ce561484813baf32e7ecd1f4,0x27ed187b8c1b6c185a51516faafffcfa3dbf617c5676664aa3a418bf62a36dd1,0x101da119bfa6c20c6781b2ca4803830c6b0fedb4590989c90cf28341aca0b741,(-0x4ca5ac9f02a80d397d9e6efc7dd8645902632a4cc51fc4425f37a6f08d78aca8),0x19330c6ec0607cfdff9e02af22709c4efe8e3d304eafa44614ed3921b611a8d1,(-0x20489bc0620a0f3f610ba363dced05f707725dd02ea9eba383c14aabb14f9ac));
(false,0x995ca4bd7ce0a5fa6982efe7d8cff890089e2191d3e73fde9e94ed58e117221,0x96f2d2ff53eb6d86192bd67d342f189da0ce6322dd9e2293f166ef756268d13,0x2e05eab6cc1b678f94b2c037b2e7e5fc10789c5f992b7ae5a4abc7e354d836d4,(-0x7e886291481602871a2ddb90d69a7a9fc6af384b27cf3d5d577326aa3ca0f67),0x1e607a2c6f131ef99fae3b18e503cd36249e192448d00529623cf086d91e5c4,0x60a247fae900b13fa860c87314093b889f694feb9fde37e5ac9f669ff7456cf);
(true,0x8e7975e05925b3ea9202938762244f3012e2660dd5040c8e0ab52444467be1a,0x2e83851ce1b9cf5156ac102c79cb4dd10234b5d215cb6d96a69678750723daf4,0x7c387a2603a35b7904933b485e073416a9992d4c5d4af7d5afa38c0427a7462,0xb6b74e7fc6555d133eaa831fe37f85cf93bf9c23e335a7ae820f04702e10b03,0x1a378994e319b7cca0703e56a78f505cb185b101226df67d6f1e077581a0b26,(-0x6d2b3602c1515eb3a927782e3f9cb3e9cb02cf539f17ef18a901355c575a570));
(true,0x14c0d266abc2aaef0f845aae2a267c37b7d1d56a53a430a3316a13d20a60a4ca,0x16deb46cf9f66baaf72cb58442d1fca4ac9a8a330f06d08b52d1076b697adf9c,0x1a5310850cc431808b6eefd5009b8200b35e8dc9cd3d2da69ed27755c302f168,(-0x7f77715506bef43c71392fd4634d43cd3c15d3cdd547b053f4425cc514aebcb8),0x8e671f33332f5962854bf70e77e4591dab961fabe53f62ed7b1f234e7b9c720,0xa23cc09801763b5417df236829241a7d4836645a043ebbbf0346f3a0ca6402a);
(true,0xfc6e0c32524153bafbf9bfc1cb554fbdf67ad99995aa1799720cd6c01ea7642,0x24045052a49b65b2984ca57d8c88f10037c8494f8a0b71e79f856310b71b431b,0x2d4c43e298cc72a66a59ce8e1f7290d62b976cf55c207b6aae74a3005893102f,(-0xf429a2d11bfb20ff611ebfa57d1862209648454db6332ed1b71e73628fd8ff0),0x524c4cf9dcf8138c7b44c48471ae7260307fed5e8e88678e6e4641ff6391847,(-0x449446fe8b50b37062596d20ddd41f60a7a7f13593e508e2b21a1ec1bfe3183));
(true,0x20cfba8b50667d6d9d76db6573641a436186c023da874cd0ec8a4fe2a91f6258,0x2af44c343f53d28dd9e8fd050b12cb93c2c1009ae3ba775a57b75bd1cc573e15,0x19b423ee87d6ee2224ad13fa4245cd3dbb779c385fb90fe71dd20d9a83a5f843,(-0x12fdf8bf9be92ad5f41111eca0b3153d31c5fdf90c2c133c6c73f4ec035b2d6d),0x163f536b95f4d6246c07a212849faddaca246955193dc1653137d5639d23bce3,(-0x4b42ebe9b9e297f69c5bc3b79ac989e1ac23b58ae18cdcef95d5f46f58dd38e));
(true,0x6ebf8a821fe1b5bfe9f61b89a8d6a0dd0750ed492610a121d7c25dce77b1db3,0x1f3ebbaa2c90e2d01de929e1d3d47da297988cf316439680b941456552addc09,0x3f3b0f350a87cadd4ac76d1ada53b65302b4c40379b37a658b743d07ec2f0e5,(-0x6b07b6a9b7d679b29586f884db30f207e440334619c2f23fcecf34344ea9df3f),0xfd7490c002dcf3d22a414d489f73b53ae3a363d15595724414220af858185a,0x1acc25118acbca67e0464536cbfbab4cca456393454b87d28b51ce4df0722e4);
(true,0x1af1f4741583610e598125e8d5f1f36292d4c6078fb6b14d8b50c61d2ce2760,0x1d891d0e4359b9efa618da9c6e415b6c769f0515e5dca1f3890c3bc6f2b7bfa0,0x199e3284a28a810d1498a3d247f99867c503379ab7ff2f668cec2d33648999dd,(-0x3c3f29ac89ba4b7b03fe7d33386dc38f148cb3fd9ea401fb7bd5db148453fcb5),0xf00dccd5c30932d6881a4d8b6a07ae1e3d2bd7f55d1dba77ff23760016042,0xf3abf655e9ea973cde9d46037a9dd372e2df59fcaa359981372dd2c3f1e72);
(true,0x1317abf2a5faaa4861d9cb31e302174f1564337023cefaa59691280200b73e5c,0x7495133b79fd515458e2a764a93bad587c38c7f5014334addd75a21f37684c0,0x52c964922e22481d4b3b1642a62bd3af95aefd4a2df98d72a02036dfbafe0eb,(-0x21ddaeacb80e444bc99de7731efe76b0df5f0bb6a33c94455bb96e3e844de198),0x78860b38431fd4e1733906f1e45137db4d438636986829d3ea815c27af43270,0x8c736eb74134283a425f3f91467983664a568b215f9a7ed3ffd540d3361a088);
(false,0x1c135104515b102c6a18c747b8197cc6a8c5b20ca560858f9cb6e31fd6e3cd56,0x3dab4c7426c4503897f388a77adff6a6aacfe3fa60b2a627f041c33f09d936c,0x28c2b355cb5e07177243150321987b2acde588400433c7de38cfc89e4b0cd031,(-0x43a333201a4b776b6da034ee56ce964d788bd5a53195d605fa041adf4adc037),0x1049dc7613006fe193afd5ee5bf24050b1acbd08b75fe4ee7c0fff2efa161911,0x1fdbe45520ac17d9fad19455694cc4786ff701e1ed18bb4ca60edffcf45d004);
(true,0x1f6fc1ba4bfdf888b6c29e842e1c73d2e3886cf73b7ba72678ed81fb0d550b8c,0xc8529ed173ec99c312021aa7bdd887ea4f7da9a922c33a5b46defc1a0b78037,0x7922bed06bfecd89759f76932921830cc3b0ee4ee3520c586d5b498b951f758,0x3409859dbb32816061553ff17b006216cb3b2d7e698c4d5cc06c38f8fb4631d8,0x146c06aab4286db82de53bc9152018994849c43c18f8d2f67ae74dd0762a42f7,(-0x5a12a85115fa9a046f64af5279be9d876de4b04628f4ec0a75ce58ce93eb68b));
(true,0x14d2d3a786d52237147cdec7916fde871307b07f338bc1384e17d168c4c3f598,0x1c055a890f3d90e8c5fa90173e8c62df82d80009b2ea505f424a5c37ce02b5b3,0x1381ebd2aab188eabd0d3503500c1f94b67f0ef591e7cb48ffcaaf22148c5573,(-0x333bbca5065843a64abd6b2f9759e1c7de2845a5060a04e6d9c8175f4d5baf5),0x8f5ea13d7b3a41fd5e23915dba8c86a6eed334719ae78371d02725d07a4be69,(-0x6ab8e750ece18277d0963ed47d8de2fffdac2866b4edca35f406589bc91dbbd));
(false,0x24264c952e5476ecbe22ddfeb7b01c20a40eca1a2a25c74c1dd170322893643a,0x1aa5e8a3646cee67435e735683fdb92991752f3bfafbfa2589d621d3d0edf01d,0x20933b14507deb12ee05785cee57956f9c3b81a0b04c1c7b5b367c9030e57326,(-0x14eea17d0f09c05f89880be08f8cb318f327207fa377f94bfa647c2c02d08185),0x1b0122ee415d6381fa13ef311839ad5ee4fe3676e8b0081e496157e1d11ecb95,0x1068936de41032486be378f811da56fd7b56014d8e3797dff95ab602234d705);
(true,0x288d2a7f6a7792e708f861ac09a822b63dcfd6e21ddaf97849e9673d0df26350,0x24cefa42b6c233ad1252dc51ad2a4820b33c14dde46871c408c055220890107b,0x2bb8a888c2edbfff010eb4e366b65d50003106f7eef102521b1212ab14aa0b4a,0xa924e9cfb13ae36469154ac3e56a86854d505430ee2c82a409f9f0aaf75bd73,0x21fb3869c23b3376074573c07f4a43b31c7362b0071a197ae6994a81a0d18edd,(-0x883a579bacbbf5c4f4289869a4a8836f8b882e482f342f01ea992cd37ac03b0));
(true,0x1af4a4d2f3b19dd6fd8d198865fa15131d602fc5befea127daa13991488be26,0x219df53936cf09701ddb827238e98886ca290d2dec62895f440da9dd3865a473,0x1bd44bcf990df332ea9c4c8214b9771affcb02b47ff7a2e43c37e0ac84a33193,(-0x50f3019490e3c069cb48ae21de719aec331acf97b9e16916236af27d2922a395),0xf03db898bc0195783b7eb943bf660032210681875e0135216b51979ef276d,0x1c71a7fec06ec9851fcf96e4fdf05a76c82772a8941c9faffa063684891e95);
(false,0x2dd3a3c8202a63bd021b57aedc3cd6e148121dd4092f9f589cc0c3bb92976194,0x2ec6e6189c9ba5e9abfdd40fde8f0b50ed52536863f12f464b5b80da3cd8c02e,0xe90023f982ba8dd7c300981773e3fda453165c99de3a27640af92398ab7b243,(-0x1fd5c83773adc500c5d1e2f424f09d6d10cd3195f30dd87d59d5681923bf8a71),0x2b65c7f0dd38f06e4f2f936a667d68e41583b7ffa6e11e45df8866ea6a579ea2,(-0xc765d10c7b864864d2d9e2dbf4de22018b429acbef3040ea1f9919a681cf27e));
(true,0x945941d38cb95e27bd0363f450925f715d46c7ba124d06f609557e3906e67b3,0x1cc491ca7697da53ed4d160d38f74a19ec2a3cc275b113315bf4b597d89567bb,0x2cbf6df998cf81a7e22da7bc0a8288b037e21f1bb03b564da7445ab3cf57bf8f,(-0x82114ce842ecb93df38e7e882a7632c7ac4c947d5777835eaf79cda249e35716),0x1c6c60d5ee72a1921fcc5ab270c98aa41857e5d3b8295756f229f78c3bce95e,0x37354d0499a4359d299eb1e7f7d60d31b69f9aeadad97113ba41876547fc731);
(false,0x20aac072c205c3f1509dfd0983500bb163f7d6bc19d1f6523e0c79dc16103f14,0x2976b4ffc83be02c0d12b72addf5315515ec9c237b573409285c9ff04db29b77,0xea0aeb8e2d544dc08715cc64a3d84b8ba3849eb6e560deb67bd0f1af0254a5f,(-0x136b77c11b2b4ce54dcd2d5cccbf7d3f329f3146d3e97f9c3a83e85238f848ad),0x160d4af3575f3e7b5f65f26cf06e188ce35918319043aaba42a984b3a327513b,(-0x8920314483f78cc03d432743818372f1ce5ce7e94d1ff1258978d2d1f977972));
(true,0x92d7a7ea13295ffb39f06f8918ec7b14549ac93a148d21d05c40b7b1d4677c0,0x107a4783ebfd8cbe730a6ccca66eeca5af9eacea969a44583763d04fc113321f,0x19ae5c5f953116c1890062a0df7f11e923e1e20b7103920b7885c6dcc441531b,(-0x6508b4f0c91ef153d33d4968510b8d5b591ccc7dd0eea5e8d7d2549bd0561e75),0x1bd95e090a829476ac49d972cffcc0c23c8690e1d342497ce7565184c81aef5,0x4bd19e76ff33d4d88d16b77e21a25a9356df17837f4924de39c7d0c976b3a4a);
(true,0x14bbd39e00706f30102c044a5319fd6610d47fd37fecd0a0e43adeae86de6aab,0x2075b0be136710c7ba5971bec3468b84c81b92e085aeac9c7f6509853dca4782,0x1faa1e05e35ba5d8c186e817f9fcf2382f82c4279b3d1f2b040e5a56a1ce070d,0x52c986753a74076a91b22d18f4e7aa2934d6d3abf1b3dcee2ca5ef039f97239,0x8e229a1fc7ad21eb8493fc25f84690213da3cc0849abcc89c09c941e723823f,(-0x6d8fbda4477f348e7bdccb1de8060dca605d6c86825e91772ab09c0130d74ef));
(true,0x2bd14b9a9bf6f826403a81474f6a3bebf2ab4d943f89f2302fde326986c7d903,0x1f592530f82fa77569cb46f9bcfb27a94b8299b25241e2d46ef6f664c499d2e6,0x1658811721f8e2c3738e2785fde0a8290fbcf3149c5078b58a9957686c56bbdc,(-0x7f9e16522d85bb4957fa9c76d61671fb1a025de52b8a5b5cf6ba842fa2b9352),0x27acf982ab9a2d1313bb7603e44164f51eeb5313452e7e8c12a6486bf8449e69,0x101a5fa037b17ee3a228ce9ccb95716a7f0a20f9f2857ec46881a82dba61b3d);
(true,0x757fb3998139684197442dd7a05ba45dd94fbb59b9c7587465390654dba4f16,0x1e682074ca6b2d0f73198c005cf8114f2a69f71e4805c7837fbf6afc9fa520d0,0x1da3e7020286f1c54ee8157b442bc990dfdf3563397e4086f0da507f57ca650d,(-0x3623d7eaef38d54c9a217bcdb3f9d519417074818d56abb8f821b86a7a1eab04),0x11d4baf5795f836c6a7e34165e64f5da25167645c8895cb9936bab0ee433a78,0x24935d5c3226d1ec5068396cda2e846b9f5f4d2910fea104ad0d49c310c2ad);
(true,0x1f78fd5712554ae5a637f617610cef7c6a03179e0aeef8757b461e583af95ce8,0x2041f4ac5d84d79187abc6ffc86ecee0491824ebcb9dd436b932e50f3d3eed86,0x238d9b1b0224294b1b03863171648a6a8121105404befe83de578feb639cc9b7,(-0x12c372bc4d9509878c4ef6edcbb351abc2868f3a447501194e4f868970cea110),0x1478075a5ed3febca52af51c022778f14722e8f494ba93d951da7445546de916,(-0x1342a1699ac44639d6bb60e6ec1b67730cffafd677cf85bd7bcf7d2bca290ac));
(false,0x15509de83e0914997be76a3837d8df6479b5c1f2e114d416029660788fae54c7,0x2d1557c31bd279cceee772a64b1819f3b04e712ed59936ca69e098ff1cd5f245,0x768266b32a1419c5997b18b931f8c572e363e4642dd0a33171b2802e61c8ad8,(-0xe3557683871b539a3e0cfc9363cf65c6068a582d8792ac7bd466ff95336fce2),0x963730932e4502c924a8145aac1a554d8b73c7393f4bd225486b8af1a551473,(-0x5a637aba0eb3e84249f4c1a76c3a814d47636b8d2a56771ac31957fe38d2ab8));
(true,0x12fb40d06cdbd725464482ba649b93c8b55b27800647226122d0e4553b5836a3,0x24d1a35f474b2d14358504abc4dce159b823e9e4f13245bb2fdc0bddc193e878,0x114f8045f5b283698682837647253c4c203c0d03c184609f1b28f889b43c21c1,(-0x7831578354ba46b4e7a872dcb02065daa910732517f187f8c5e2d5ce18cc86ed),0x77204bd88a742623589ce536930855096f7a54f521c24922916a7be253b5281,0x33ddff94ce1ca203e0c65c7888d322bfd150f968e63803292ec1b12a6db38a2);
(true,0x22b244d5130e6b5491234a39fcae46af52071e42830d99953d9584b8ce0df4ed,0xad5cee3feab9be5a09c5140e7b62425329ac0d7117d16f5bedb0053ee6e4179,0x688a2df9841a4b719c1abf721e4bee8b6a3039fd3f762a7e795c05bb9bb7fa3,(-0x3b37cfe075f582621c475f81e62ace7db8e0716643e72c0854d28c258a560e6a),0x18e07b43a04a9b05913573ba82c0b77236911df80f5472f26bfb1b1a1e4f6700,0x12a148844c33758ad535d0febb78ae686d2a4fcd58a9d8488ea93b126b81d159);
(false,0x2f35e307e1deb915a28daf6619b94c8dd996034133d5eb887e4aa5e85c19345a,0x88036092083f27782be03a20e74bdbe035d9bae918994d9441665314f887b6f,0x2bbe21cb357f4797965b3af127a2836b86167a5734abff162c38fdc7224d2160,(-0xa921844abf59290929b0ecafe288e0199502eccee180b757f87b1c9c6656279),0x2e0ed98d64c53cdc04bb58b09b850ed4ee3f20bc62914932487a01ad2364c8ed,0x247023c1c03a9cdc1d38be90ddb268a12c32f60936ab61afac6be8843e7a1f7);
(true,0x3a70a6550bd73d72d098175dd37630268c08cf597cf1ba0fc0b24c8fd71fa34,0x59c34e2445854761f4fa621c57f2a44005f0bb44c535c1fedc914901962bf18,0x1d33ec72a121ac8f95d273627fd7122d14cf1f6a954fa078fffa5cb4a4a43ba2,0x21f8e36b70789d3702ff874e7d5a7a1c3c9848263edc44d79a954f0f01f74fb,0x46931f29c26420c9960d8628b29d1d7be2c22e3a722fc0b7ff709aeb1d1b96,0x37da940c85822808d14fb2383f3d842e287ff1e99f445d40fc006d73933d06);
(false,0x1aa2a499408a855475b7dc24fc0d558bf34774e1e4fa2ff90d217842f1bb6e37,0x27a0fd1af96cb96eb691efadb5a22d36c5e2d60358538a91400dff20dfd68ac6,0x2e9f03b221403664e9b814e9b0a3f86a31e0889465892bef50bcbde799fc624a,(-0x316807d059fe9acd6c1228bc466916ff944acbb245930c2f63ec26116ab2da7),0xea90bf09b3499c32249b82379c771c7915f300bff6b693ec9a595b0c5d03b7e,(-0x12b965bc0d4a105e5c93f9ae432d27a40db305e39af88eefeebe08f086ee6842));
(true,0x212ff59a9040536918e5b5123bf7df74c64e55eecc4962f8e37e765321d438c7,0x16aba5c2ee7c4bd20c4c23ac40879d534ba86c214101898d9a713a80532c1bf9,0x284c08aa4b3f4a43b9e90f78e2b528900c670308632de494322d8f4545140394,(-0x2169845faf5787df9585298849d5c8ac6eca140362edd506ec4d921b9d0f88a0),0x16c291bd77f48d798822748a002ce094c726b18c7f95f19def7a2bb86ad52374,0xba14ff9ac851d5d934b3c2fc95a02c1c444c8f07ef1c0158dc1ed52d16dbb1b);
(false,0x1278f17f5f29a664cc875447e3392d438a9504c0913074ee1b1dd1c42062656c,0x6b2c2fb561d5af5e96deafdfb6511c59575b6a843b31bdde631ad4cf43b4229,0x1e07020cbcaa511194c4487e1983d48dfb4eda1c2ddcefba760614db5d015c76,(-0x8a767c48bd6062bcac58f82d3a7ad2c98e2f467fd2cb032793e57e0628d6582),0x70d2994353e8f3f0ece40b0a368be2a23e6004c411cb7c3c63d80d8825fdfab,0x618d5e93292122f49bfd6923e8d4d9c8b36e7bc3592b876dc74c1134810919a);
(true,0xa42f8b891bcf0f0a7cefda6496263874bc631ff41948bf8f4ed00aea1013211,0x18e0b0ad29a54c3c07607c152deac667dce0f12dba754a1b28a6c9ba1c3a0c48,0x135360f60f48e4571b981085913555378543fb537e149c0c994c8994df8111cf,0x9f409d3f61a14e4deee1ca0a4b7d6774764ab9b41900645277986b3c48ad8bf,0x22d0e51aa763364ce93ab45ae5aa980111b03c892dc5c02fd6ffee0063ecec1,(-0x3dae093a4262c59fd70f72c8a2a998d6c01310e5c114f2b5551e683eb7d2f0c));
(true,0x11fac73b8a046fbf95944afe752dfdf1f7fdd7d7801f7a2ed2805799353c86af,0x1c9ee00234d588389d9195f10c25d1b36a345053df89bf483cfb8d7bec97b3bd,0x22892a066fa482ad72cef6f5096546132a367b37b5ba6970083ac84ec395edfb,(-0x1801e5e2facb6346f557ddbea5bc40a1609ac912a75ff961d5c5cd56ac10b952),0x6ae204fd13aa9aa4f1e842c7d617580824e0fa9c44d3ff38d23aed75a24000c,(-0x164018f56779692b29ffcc3dc4a08e2b2c9b2ab15fada2313e0595cbaab0193));
(false,0x1d61d27be1fc147bf32382b655cb09415db9517676b31892027a43f83d7afe3d,0x1a77dfb39f93644c0aa05d21d7ffb7f56f1a2e568fb88dbb5897631f8d5472c8,0x251e9b06b67ed72af3580fc027229f93fcf4b05989d0c41d5de2cb075f74b9e9,(-0x1160aac72ab924490f120f659cbafee7556e50936df18b072d463f47027ea115),0x11d7088cbb42f8d29c369eabcf20af1bc58d74564151ff485f460b48293a4165,0x14e8d51c2653f876ba878dd5f7cb13513ea909521ec0d8eb0e9e204567d3e1b);
(true,0x21ed326a3d7cbd4d723a45044799ba102db5b1aefe8c1e2a9f36b9235572d612,0x173b7c988e1feae45d7700918f1eb493a9af3356b38e5dd6d5947bfb8f9a6114,0xbf0a002915cc0e273c0c773acf84efbe5656cdec94572b99664678dcb844437,0x89dd6a5adb4ae84325b9e43e12ac21d51d0d65799530a1149ea44aad5bd15dc,0x17c9051f36eb72325ed16db5101492334fbb25c7e8b081551fa691ca2e656860,0x244c40f0bcfb5d4b261c4d0aaa26ef08ae22f991961a3c66913185e8380a738);
(true,0x45db853818fdc70795c86b9cede38871dec14c3d1d55a9eb0aa79631032e862,0x26d6d93c950997145bc8ce16ffd2bdcc9da21bc56da194d06c40136f81f596b5,0xf785a2ea0542add27f7512359ca13e45240a9306c2dbdc58ba63bc1e304824d,(-0x1f4e676a08638e6a247a3cbc29ee18f12239dcc14b6b42453118d778e16e52cc),0x64d84e29542fbf3347ad9356998586af5b4f5552f41016587ca3f56d5045a1,(-0x1687a09ceca5b1261c641e275a1a08da1b2e0d610152e2bf01ebef1fb1753aa));
(true,0x25a88106a601d5850b1a022cf599ef00137cac2233f8b3ae09d1284a3de58e3a,0x26e46424b1ebcda798af9904698bd7bddf50de5e2c95b265c3642cf5089a801d,0x23bdf12ea1227fe8bc7397b3dca6aaf67c4bbb1faaa86b35f7dae8de1155f2ba,(-0x45708845bd7e9c6b515f7fb9381f929de465168b9b7f385fe368b008265d8241),0x1d4e2e57b964fdb914916e1d224aed277f098842204d476b3619e34ef51c05fb,(-0xa89eced8fdb7d7285e98ee59710483b07a368b4bfb2bba04e3f96a2f71431));
(false,0x2a04062bcc045c64e3fd401f696fa7970b118930d33735a3c9a463f558adc04d,0x7f79523557ae758fe22bb56c47fd479046d0a8f2ce1c27c733d7b4281770335,0x281b8582ec5d11359073a707d0d8cfd551e3803fed24dadc174b61a0b0d21fc,(-0x21c489aecabeb6f0daee6ffc455d415e41d5f1501d0f83f79337543d25d846ac),0x247acfa8d7c39c69497ed8d9e250992c25e884fcea9b217ab957e2bd1631a07a,0x1ad9b0c4a6897f86f3190d0f79cff1cb1fc0cb99acb1caf68e3870f2c5bc1b5e);
(true,0x180b0ce25a74dc249e485a8bbebd9ee27be601b9dd1fee07e146812f10d37aa3,0xa0eb68592aba4124b1c0f8ecd5430d76355c331b6dd671b42a8dda4fe1beeea,0xda8c867616e456cd14447996373e67934fc73a9b4f65a232acbc90500d9b665,(-0x171b52b790e45e718d185d83deded44d271a329477c880aa85357ca0e485165),0xbf218de76c1d6f0b04a07403cca0585a48a7e821c402569672e7dda8c5d4463,(-0x109e047f4f001a6c1436cf7ceec0b7d172d73e8c19c234e28ee2d2239532c60));
(true,0x2e6ff53d8f2e90e314c3be1af21c38f04a6b5c93e8f9cee21be90ead9691fd1f,0xc4dabf116eeea47b3601d20dc917b69e8f35c3c77ff8616afd11a74e6265d82,0xd5dd1d0fbfd4033d5376a7a74a65f9c0c66b4dd27a0eb5ce6013ff1e82244b8,0x13f1c3aeebc11a5c514acaff6c6adc69771bd650e687bcbbe2ea995ba85b51e6,0x2c8fd165da5b911c9794010f6ad11d4520a68449cd601cbb1946146bdc2ce7bd,(-0x227bc9ec7a3ad16cba5811e46acc91ffe2e06c71bb30a146d907facf43d7ad3));
(false,0x111d39268fc1b34f4e7defe60f707f98e67aecd13e327a58db7eb4ba9e43f564,0x2dcf5a6d4ae0b3b2ec2b71d77b679cf3164f2d1477e4207afd393132281f970,0x5f8e234bbfaea48d9459c66b687d7063e2da30e5992d2fc6c9f1fee4b274eed,(-0x459e80e17e8288cc65d78f9c2f99ce0e8bf2a0ee004fba96214b2a8b483f2e2),0x60d7459e3c703e61b6db71efbf89cef246cc0f02bd19f15ec6e3c2e9ed8c17b,0x356b08148970f234f11523cd6732334a860e02d40891829fbc98081d7e35d05);
(true,0x19a5ab946a1f10e7618062141bd5c86e5bce73e872cca2d015633cf6f33bf3f3,0x21398393ea990ad5b1f742e1cf20f5fbd93a5e4f64269e1efeef3e22452cf38b,0xe8c3029b4565f22f91e5b0abb1ff3bd3b9f6171378f6631a3f4928436d80f8c,0x5d27c83c000ad94d44752b7fb6d927d640a0ce0d29622a60c3e8e2d3a9066a2,0xd97bc341469bd4179dd2d1b135b9f1a85b8f001a9b3be7fa75e97886b0a02d2,(-0x10175ef351a2d6d4ddee8c13353275741117d303813e15443d8410708f8ac516));
(true,0x14ad2f1c612e62b9278758e38a860c9d42263cc7fe26d2bef045bef4aaf03d57,0x1389a1e2e9fb8e68570f9f21efdbe840b19b3c0b93f75fc11ddb34a3d79525bc,0x2c5f2f7fe8992085bc47791be12a18a7e11b574a1bf0769582edde6c40b314b5,(-0x38008eed80de15008020cc819d7deb3e58d20bc8226cdea9fb7af799616d3c25),0x8d5a1ef18605e33a510aa4a9595a402406946c0d9c7776bfc0a17f4522706c9,0x5d91cd5f1d85fe0f418a01ffbe6457a3c9997fe377e2a9eac4577094d9f8b28);
(true,0x2788816394c4d74575a332d396e7cc4778249075226963b2d18b532000113e0c,0x2ac3c4fff29e638bc422c26b058ccbab266d2b0c2d4b3e9243746ee5d8dd400b,0x204ccf474cc929be759525db3a67a8662e0b68074f9b9634513ffbd2c1eb7807,0x30d5801f0e7d68291cc553b00fb696332e6cc953bbf991d133ef66e21c2196f8,0x204bd8fe6f25a5cb46673d74c3fdd8f19d15ac259e7159f1d878d76267ef050b,(-0x12f9a36ff02c2c5c3c7c5e107282d129f5ca957dcdcdf12d7ac88d0324343a10));
(true,0x302ad7d40982853cc80d039dc1c41e90210583fe530c34ed2eb629c5d6ac70a5,0x2f7add5511db248a8f99e9e108d8b127b855d123e5b7ce950beeeca477c21510,0x1f6852b2020bbdb2a10e2e26f4484346eba986753f321d72b8c5f309b52f9e8b,(-0x31135062a34c8d78343828be0a456da6b569885f6b6a24a8116b2b34617dd2f3),0x2ff1a5717874f4583085eecd2aa93a26bf25406b04b4f525371bb9da8c72ceb5,(-0x4b17ef488fd801929a2d367ada7962b04baefcc9dfdcb9f714d7c253b54f05d));
(true,0x56e1236874abca11f14edfc8afe616271c227d6168e59c49dffd31c328b6063,0x544851a5e687e4dfabcb26458a1a3912a0eb9a724319dd3bcfc9ed0dfa5a06e,0x23a1e70ae926c5f92fa56efa90d16969ab71edb840320a724f995f9072cb3d72,(-0x84b5151ed157d76a2c420597bcf7d58a330433dbe0e959b5e34a9b83214c6792),0x9bfa413e7530feccab844e9c419ddf23474a6385d1a95843c05854aadf57ed,0x4bc8fd5e65680d057c87371f13e36c2fe578d12318712058f7d217f840e5c8f);
(true,0x2b1444187c93e610a12176acc197dddbc977066b64d918680b3f9be4ace0ecdc,0x90d1257d8839cd58218ddee887322d443d74d2a2b45adbaf7a2f3a991ca2201,0x1daa4d1fbf6be66880afbfa398576fae1f87af6c2e04d31c6aeb68b1eaf62154,0x3db88bffb5cbd363f08083e675107c40a2b140432cc26dffee0a4adc705052bc,0x2659895991d89b6470c2ac6c341e1cb2230fd84c2bb8a3c0c8b99c0b807661b5,(-0x35e38541d818e790b2c2651298853548e6b97931086a76d66ddfb85c3ce3f16));
(false,0x3e609e335c86daf80715586c7bf43799070f6ad3162c92e98f2c8c59b1eaac1,0x1f84d4f8bf3dd5838435a84a842931b24f3c9cdfbf60668e2b62734333951a94,0x1404e65f0d4c7315aa639d56718f999a14693e0f7e04ee009f4fddc1df4b7f5d,(-0xbaab8ed960e9a2e194d7bf41e6ea229da79da895c857c70ecf8c10ba5ad8e2),0x5067aa73861fcadb46cdf8c1da718580cd5c7b688fdb06436b43fbde07b93d,(-0x1cf60fac313acbe23cd12060b03d3cae36e4c8107e469950c63d568216b605c));
(true,0x35fe16c92af220c1d1324c5a92c7b8212980a7396a88a94a5a950cec10a8732,0x962ad80270050898d98b2fcf1e6c4f5ac3a0746ea9d26684f5cb384d3543dc6,0x1086585dcb38a929b14949ddf5331d5ed82fe91137b461492eed4d72c858321,(-0x3acb9399b41593e9a45ae6d686cab80cc2ec5054a268da5ec0fd566096e510c4),0x3c3dd01c94db6189139c9e363e9f683ac1227d71d6f8661e0ab8da6fffe97a,0x18b1efc2b0288d4231f7e0076dd6cfe2597b7c55a08d9e3a793997f34f8e952);
(false,0x2dca3c2eb5b50ca3f51ed38b302675a88e1a0419af2a0dad73710fcc2873d37d,0xf2c8fba0e122b4a23255ca126290190bc329b4b1c3e5912c0c109af92d8974f,0x2f8a73eb7a00fb76926b109bd3a8276013443b75ee45fe37ca5416ec1ad598f1,(-0x8e17ebb10a33bf09cd60ab7281ecae8a44e91c3224b02502df0657592ee535e),0x2b53f9cf26696a9fc9e0b37bbfee3f1e77658600b4ea7f426b8f225b8359e7f5,(-0x57a3562b8c56fbf59cfec069885efc08ef7676148d5a5896fcb1f823d1d48d1));
(true,0x5fe489e3d7fffba4a848d1daa8a10744ac891dd35152d6c15fd4619e5619b57,0x2d0ccd1e76dfca3f1667f731979439953f7a3bbfe99bc5a2c2f017e4490567ad,0xe95a86ab43ff267505e7cb38e2b1b503de13e14a8969613d8cd889974905099,(-0x27f9a6212dbd61ff7e08c544378b04210e9e551313d6c4d4e0985da73c7b683),0xbe0520b227ae72dd530d3e3fe953c55377efd0d943c834fa0cadb325045f8a,(-0x3b33ac100cfd8be1c908ff6a37e183d681ca97a7b0cd80f9b10d130ed688ea4));
(true,0x178dd10db238d3be05a57ca784a7e228234890e2fa835f7401aa2e4151b0c021,0xf4c556230accb23ac7cd9f95716b20ae92d5e9d413aa920f93bac78c9a632b0,0xe7795adfa2716622da1763a220ffd0b0adc6b6cecc74ff67a9103bf7a1ce902,(-0x6f9e8656ba89b9b21023562103b9638c501f86055ebb7e7e41fd1892fe769cef),0xb76eb8584a42d07ccd261f5b7e950d96c139c5c7b829a61ba0d1b22b5b50b91,0xe7b32a965883b2687b1b309a38b409714c3d423c0b0af095ab36e18631b85ee);
(true,0xc3f593b3903a7abbf05ceecebf9637cdee1ed4d44ef773666530256bbba702d,0x9282a1fed1bcd5fdc578e0db50c215c564f74724204065fb3d34466fe3673db,0x1b00a0377f99a93e3e1e79d59c2352d5dae904638e12ede66a6dd6a796b07ae8,(-0x72f8d95dd98b1dac9ea46f2d61d46f463cecf5d8f558135500e6b0e16f27354),0x31985fb23191faabf7265477109c58cc7bf100bc603eb707b529c372e2a5ae2,0x18de634bf8b735ca40e081a99889024798c8599d592286d1534f7eb5887f3c1);
(false,0x28774400bf419e1dd92889af0e7be5a68b1705ee9c9259c7e691a3a0229c12b3,0x960aaffddb8fca483439dc65ca00f709c4b31b30ac752d47f1464f2b74f7e4a,0x20b59de193eb14a67e7c8c0eb28467193566b6f8c025f5874cddda537514d6a8,(-0x7a838acfcf6ba9bca7af0446c420b77b36aafd78c5bb32c4607f8605e017538),0x21d68e0d396f3b2e967d28e2a6726f821fcd183d55ff969775048300f2cee665,(-0x2f3fb832c6745fd21160fb7978c0e0cb3c9f703bb285897b19c2bfc6673deb));
(true,0x11a2329f0d2b4e37116bf5165536c183bf9a29a71986162b6ac7fab813b4147b,0x2d6698bc3e0e5ab415868a26dd6150884d6359598abc764ad50becfe08a3cf36,0x180dc9c28c8200627473a7f80f8368f1948abe6288124604b696d127e9e8cdcd,0x1262ea3252331d2297cf208a6c6cba31b79e0497d5a2e51d4c8e830818446a9c,0x66cefd28873ba8356485cae8e2d009d10c5608709ac2ca9bdbfe49db780e9b9,(-0xd206540f2058a443c7381c01f0f07b2696badf4a28980830317bf7d3d0183df));
(false,0x910db00f3522afd168d2c5367c0f3d78d2f2b7ba84fcf82e3a4c1b14d1165a9,0x222ff0614b1cd8af685b6790819c260a66bcf8d983668aabd082f72279d4d467,0x2c7661f729451851c89fdd1236e04660875ed0ca510a0e59c353e17766434dd9,(-0x88167d19b6ba847f7dfb82c69fca12bb28cb4722fdbb724fb9652f8b7c0023e),0x1b2cb727967b57d74f3095e40c6045f0fe58027d0c0653991b2230920f4b7f5,0x219cbc5f628e12929cf23e1c4bb60e110c09a61ebd43092e8b5364013c76a77);
(true,0x15bf5e58d0fac51debc1c94fbd4eefc586d6b79f8f3f9bcce6beced06cc29ce5,0x2af2534a340650759b51beab36eb986fb6132547e4566a77aa0f3549f48ca867,0x1675d541d22b10e41ce1c7e1ed07a45b2930d3c4fa22c23493b833bbcc83d898,(-0x207e49147dba98ae2fc05b62d999ebdfdadba92373b9f4f2b73df098472c919f),0x9c60107536b56e418871d7ff1d8e82d0facbd18a5f0676eb3751475aa13913c,(-0x3efbd6d62ac190efec654a76d04670ba960976a67c6f728c47892f03404f687));
(false,0x1d800147ff17701fb677b526566bb9197a8ee964e0657fa3d448ba8d03c03d95,0x2bd1d2b0f9b447cd020425269e00c1b35a73190e87e1bb4678f23bfdc2d21693,0x2ebda43b0dfdb4a529964c4e5392411e14cd42b7f47358adc95d69077d120346,(-0x1a2e393f5d67af5bfda0e08770e1fc1c4f926def865665ac689c634be19004f8),0x11fbc25a1d0f9e9e12f66341b7296fd483425c6dce2cdf3f069ba7a28acc3f52,(-0x883ef0a9a2c28f293eb536688c168a065ad7ebdbf4a299db2a18bbd8f8e1b6));
(true,0x101d71cf2e884fa04fada61df5dad314a445802117be317c8e3a82a42a08d53c,0xa46bbf3efdbb26d6ad041dcc65ae6652e1b6509838a1e587b838d5139cb3701,0x11435242584573819949ab3057b8d7ab92e565d50abb73b249222d59f5b4ca8c,(-0x57e867ef9a102132a7ffbe73e749a4abc4fae1ebd7b047ffbed6090f9aa781bd),0x55dd1b52baaa7060bd11e1706995d34bf23e834e5fda914053d5e7206b25f4f,0xb2b98ba8a99ed44ac0be2233afa3fc15ebd07b4ccca8bc6bb42806eddbab56a);
(false,0x21ecdfa932f5d01149b7ba6190f5bebb2dbb8987d8c3992c87123b88dbbe214c,0x2830a958a16c545d58fafccce6169323cb4dca17b5feb6a730d5e89903d0dca6,0x20fb1ed14c3cee755ce18cb792f9aae7e4a3bda6ddb951c523267f40fef2c493,(-0x73449814e980bdd29368e99a2588813385902ea4171c957362d4b0f1563cdda),0x17c89116f08b29ae5d9c12b4113ca6754b79d0c5962a2d567b4f33f79a8d61d8,(-0x14f89f2ad7fc3f68b8215de4cf2db6d4b669001295e72dc3c8b3f2a83ca2f78d));
(true,0x176ee09abdcb8466f50ff813f4cd4ab58e6a2069fb5aab9dd6dba39fb3acd6e6,0x1c48e2586e618204080c6ac0f76ff504494d5faf5266f89aadce5e4acb25290f,0x10d4c3274a6d1324fdca85feef8a92c08626eec35773125546a4efa525442a33,(-0x4431aff025a78ce0874fbb1381e9797c3dd2e0d846dcbe4b5fde124bd09156f8),0xb58e0fd855558ca99dc021b5ff54280cf6f0cca4d0a872529f3d424af7589ef,0x5c3d8c8778460f1ffd8de2876cd43ff6bb8a7bdf0556974b34532613eeb95fc);
(false,0x183c7f56180ec5c3d52bb39e070c77ab8642e678109b4f37b0a1e1437a6258bf,0xed11bb80e0af6dbb5704244a319c3c08692faeaff40d66358fa694e11bd55b8,0x1890b2a7c5ebb6a645d62880a5134a3e4a661b02c42de5ac59cf087d83da99b2,(-0xe2a7cfa11ed0c508f54092af25b69620c98c311552952230948de6df6e7bb37),0xc236def6e8aac940a2322137fb3e75b1a094f7d20c35882052f9448756d3aff,0x6bec44e6c6c851a1a42b2cbb58b85c6fd79aebcc91324a9dc0493bf061d0fdc);
(true,0x357822816269a44c06c671073b2e8d170af17f9746675af2606a5059da83c39,0x2f52f71aa3259e6e1dd612cae233206b2c427f07ab54f6e29f51a695b1cd4ec3,0x3e856b9cd32b344ecdb1de1a6a5770b29d8442540549bc364f96d6fff73c807,(-0xa379b6fb9e0b84ec031f768bf7ca9e45908d84ab26b0c841947577a1e1836a4),0x3b145898a59379d6434d26803bf9d336aec2fb6db97f6d1ac447b4310ee892,(-0x23eb04977c649df86e83ef47dce5d048a32687538e0704c05c89fa1b888b374));
(true,0x26a7c8e556132d0db44b1d47253a85c34ec6714ef7e5e82707fa6d7ca6e15240,0x2227e2fa9f171c6593527e0d1132c7905f707354c56d2a74f9d4efabf10df8c6,0x26808d53f5226a7f48123d0fc501c7d11115c127c5ac5859042dc101e48ce063,(-0x8498d2cc38b02d9ffa6cc1a2a67b0d1b6c4521caf2d1077bf110d5835494f68d),0x1ee0c1de9b6e94e86ad68a5bd799f3d58538aaebde55c69fc8022676321242ac,0xa84d1b13e1f32afda8f775d87497e70763e9fb2153485fd4cbee01b61f4eb7a);
(false,0x22dfd592ca8d4423cbfe3ee9f8673c858b5b4fff2e1ec059745765d3f5b87563,0x3db5da38ad12b3da324af4a92d6ee8c96d9247e4a41d24b365845712dc7122,0xcfc13e55e8323e693ec3099b5f3a90e11c2d097fda5c0f3d7e804e1f61bd49d,(-0x189d6c8752110d7138eec3f555f4cfd12adb8ace94f2a6c21ac90641dbd2abc2),0x1921fd2161a685b20a54aeb8244b36434cdc4ad40ae848c8b421c6f3d38ca2a0,0x1870f38cb4395030c75afe9b0aa3ecdfea79eb8f8e729424637c5cf7fb793734);
(true,0x2bc6ac7170b4450ef9c928dd5f36ff6ed6bbf210ceaa47e650d320e7b1598886,0x17c94ffe7186923ff541982be4d91ce8f37cf52769418263ac352cd99ad9fe93,0x12d328fa89986dd877fbb2cd196696a5cd2842c34703f0b3722b89502d5f2034,0x177d1cddff26be0e8c231a346c9fa185212bba823efbc6fd6c8ea4652cf386b0,0x2799bf949431587cbce4b827ddeff1fd872ae5bf8b2075241a0d119c83dca2cb,(-0x154cabfcf5728cfe87c5bb032bb971a5edcec2a992d74dcaca3af952cac449d1));
(true,0xa19a0d34088177bd5e39bed6cb88a7b4bfbdf75d6bba4e08145cbd6c4f4c594,0xacde98eed13ffe34c9ad9bd8247e77ddbd0b1a25bd2078a6bb594d5daef1fb9,0x260b7749d8d07b616f15f2a417fecc2940576f4915ec9eadcd55af9e072ab7f4,(-0x1b37b485582e125f542716588002d73b3e49b2724214131b8708434a5d36838d),0x21ba8f4ffe7897c4a6ac800658478d2d04c8d3231985731a6d9b2d23a4b2e47,0x2b5a4ebcfa3d179e33761a4a67eea52cfbc5b54c8b766261f9a76204781b120);
(true,0x6069e8395bbe44247dfc6e78011ce1472d7a56f55d65b85032bfaec13ef46f6,0x20e2dc7c563347253e062c3f0d668b287130d3ccf03ca2375f53a3df95104ceb,0x19788d08859e23994a5c971d26d784cbcf5fcfd8e9f5d6de2d7920cde97430cd,0x23cf0bd85cfa632c616e39093833885578e546a4cd689c6d5da7ce8a240adbb,0xc017207239443151154e24e4474d67d75add60a5bceb4e58e757d8918f1f41,(-0x2bfeaeb01cc4bde88b1b9d05bf836406dbd3b6c92398399a807d4bb55c1394b));
(true,0x66718e4349d7ef4a6a343e43512a54934bbe39132b0a818c3a994b7b09407d7,0x17344dc3e8a1c062a1d329316ece0d0edf6492f6bfe5065ba54bfa22aa5e6947,0x1d2b4c6612a2bd7052cbdafe99190e20cf095018a70c2e5da83e55c575df1199,(-0x3c4e6ee64d0d7d6f2c12050f93d45d4db5178aea3a5cd71bb280c8a73b0fbf03),0xd8de775995e78954ee8e19011469fab823c919566f24b27b2d2e78e85e5aec,0x147f0225f36945f202751d971a689bc82434cc4bb3beaaba2bdf1eb2b6ee7fa);
(true,0x45c8a3961e8f0e435228fa47122046c65da6b8c7d7560874bdff2587a22b637,0x19edd8309df001c16f150781c6e73dd982e4b5f042f7d071c474e74578582c3b,0x304ece8337a5599cb57b86586f955adb20991143ba745f65aaa824cd5bf0d1ba,(-0x1c1f40c73a320692651abbdc2dc0fb9892d45b35a0c8a625951262f398e7d283),0x64a1d20cea58af03ed48465662cd5e89eae377607f2124d4d7bca354061ab8,(-0x3ede4a89aeebccf298b6407bf278396faaaa754e6e1b6b3691956c43ba17c9));
(false,0x144d7d1801d7fc37a87497db8fb4526f938a0627fd4e6ead3b673229c6359f2,0xe05bd55a73f97ff295ffc91837a1ab40406385c929107acf8696b69f5e73e35,0x1583db57705767bfa8cfcd044a2141f4a58ca17f5b1743101982d8c359e30d36,(-0xae0e4e31486370a23e6eb5f536a0a6f381fe700bd2544bbb5e7a3a1cb43e04),0x88498825f9619bc43f600210d317191046808429606298d6e10354ed80c95,0x4fed380b2b13c3a68f1030eb3a42d0e08cac12c37b95e75b6030b71b11ef64);
(true,0xf9311c2e70426da42826bd7224526a4ecfc996bae985879f5b3c279ebe8c2c0,0x6a495fcd8f7a4a3ac98c74f7cb3c6892070ec853598a890d65cc6ead1a3041a,0xb08edbece8320dba0eeb4e3b8391a9fa9bcacf9daf5469966547df484ef234a,0x1a8bbaaca1869fe3a3f983e4916cbdf22710d6452dee9b3e5c30f56770931c3,0x503342e0ce0ed4280698773d4b80a8110c7898c9d26f891332f7ce1c9acc2a4,0x26001fec55e78910d668e1c9a1acd54c1e78d5c88ae5c18c381e33390b53840);
(true,0x303769dd8eab6c29ee2c76b0d2c79ce1c7153c414e5c8829b22ca4c934eccb0a,0x1ac44a8fa3597b5ea396221d1a78a3c4c1ed01599fd5ad8ab64ef3be6775dc6f,0x2a75de2758c253a2c88b7c96a688c07299d6b74995dbc21501fc28080d638b1c,0x13410c1f2214319db5098a59785c8f4d284b0530de9cd3f028bba9353fd42944,0x300aaeeddc0060492a5677d1420ab1d4d7b3ce734b2ee7695ab69fe7f409c6b7,(-0x140d095b465104a7fd8e8aaeb53b06265001e2c2cc4fe5d8fcfd717ba961ad88));
(true,0x29b5a6479253145ec6fa71b38a658cee0584e22183245f0f78c78484497e41cf,0x118a5ba9750df9a89f3860b405e26abe2a255bce1155a7e07e3a95525c77cdc2,0xef7a1a8861c051d666f2a82ab46b37764f887a964b06409635cbcec66912adc,0x1cc73cb3cee910a8b09c391293128fc3a9c2364dcaa02c7f117928adf6318073,0x23f3360b5bfbe951dac2cfb9d8482aee3030e626e2452b431a8b2f47ee70c7b7,0x7f3c844806c8b2d61079bfb5d0b4a5ff4cc8bb5eac5deeaa4350ebb273aed3d);
(false,0x8ee39b97844871583f0c5328056206d28606439fe94b203dd62538b1d9739a1,0x4a497fc907aff8c5dd3d3f1b702182a61a736df65ef0614b4c63663e235606d,0xd036c3b2ca7c7370f2ad7720aaa91f19b4bd67fb3f41ade7b434a1add6d7451,(-0x33caeaf31a16a48aab50c93f2368cbfecb6dd8687918fa59e2bcfd70d0baec1),0x1a5ea8b01927c0c0a0ce661b1bb825baec14e164c4c546198bf37d8f4fab2e7,0x26154b56263dd75398d1bda42f80db12aa9a61a54d84a5b7eab5dd67f207178);
(true,0xadc8e12601996e2c755bad097f6814f539072314d2ae99e4c9f90b4498f2035,0x21585cb28c3d9c1039e25bfbd12cdd1fd3f8ab1d21a6d23a802bbbc6da5af373,0x2f25c5cfa5a686d23fd3e48115c86ce5f99b91cef0a59778651764893583c382,0x4815b767962615cd30c134f097722ba3e3c663ad19b1c68cc74d9740850bab9,0x2701870b7739fe8096c331d52783a3db59b15969f2df19ac04fcd6cb37dd9f4,(-0x67134d4dcf3148048691d2ca4991a39f950360221c40af5dab415833118bbe7));
(true,0x167c6c75c9e42c5bb3aea341a5548b08ace9566752844c3ddd4e16ecef903540,0x249fa95f47630a8e2d5306772d7c59ed47721d06f29a64179fd5c7ae65475800,0x69f4b5814337bdeab8df628fd20d7f744c54dca398716c0ad4f4c9b30a0f64,(-0x191d8794a7557730ab6d646bb67ff74f0b04f92819c7f7a03bd70b89ae5d15ad),0xa72d057ae745f9826fc48eb679fa3321d3cdd2911e44bbf8616f9ea16158b16,(-0x185fe6e438c75736ecea6c77162940f1bdeb376225f2a3cae37759be1db5aaa));
(true,0xf2ee9db8e046082458146ea32f66575233b4994d330045d4cb133925d6a6b71,0x2da360428821313386882834dd7e1e0d67490eb8ef733315e358014649f0f892,0x27f2807aa2e5ef7dec69badf45f259e7d3b13ff1871b36eacb8691398da88cb8,(-0x52e4729d648c536cc8ce9dc177917aba7f63b521fb9bf9da9096540612759c88),0x4c38b82186f2f450e6ceabbbb4d831d041405cabc73250b0b6b1b4d595ed1b9,(-0x2d40f8c73f1d1a73424831e58641dc4f260ba938a71416ca0dee8a2e72e3802));
(true,0x5a8f4d37d8eb541efcb77e6181e4f248249c6759702f2475885090c4564ba63,0x75163bc8eeb42b923b587c540a3e857a972c26de1cfade18e2afa9235833c47,0x2692e779f371aafaa868fd0350c7641124435478ec6aaede44a49aaa24a712d5,(-0x77c77546fd64c87e2057eaf47d1d54dd2d715581cdb26b6b427bc0887068cea4),0xa978e732466d99107853515d2cb352e416ab8ba16d42aecf3243c7fd323b32,0x47b6451d244113a6e7327e37f4ac045132d16042724dde9f1ce736c3d063eec);
(true,0x23fc3c8f08fbfe2080971ce9fe84fa723d7337c06754e2f670a8b1e250f92652,0xa0f21b241ce27f8352aa8b66b4095c8fdc6a5a2c7422911e1d2e19ae2905c8b,0x233a2022203324909a2617df5d59c6728720f9934dda470a3bd486a34204a1dc,0x360c8702993a4e47039695146daca30641f6c472711661129b89044fc8cbc817,0x1ac26fa822fc08cd6f10aaca24d818b19425d3925490421de57bb08761f142fd,(-0x209d4f7eac702ed1f8aea12027dd8997c329636bad39d79bd6df3fada04c23f));
(false,0x12dd77a63c7e0b1d6a0b79a3b48b651af6e6a41c04ba32f31665efdf95d80732,0xc5cf3e57a0769826bf9d474e5f64ad67a3d7fcda159ace0b5c2d064efa08012,0x1d028734d2b19f4ad9fa61a959d1938530aac5c98e930baba6e79142cb49e383,(-0x3ebe4323930e3a7b560b9bd608a56b6ee28f772a0db1fa8f90c40b4f92a7516),0x75ab934bd92072342cabaf51a9dc813138ea46d8d0662676cb740fff30388aa,(-0xe5efb368785b06c8279c69f6373ccf469d8b28631ca9dada156fb68dfc2ddb));
(true,0xeca890d649c669cd8938fb69874024a9cd00792f89da49663347cd9ea199ed2,0x19ab8a6cfd569df856ec049a3a058acf5883c162ef8494efddfbf670590fde1e,0x1510686868f7a097c9241fe3eead522d2bd6a986273e373c723fe00681beaff3,0x842289ff744bf39cc1db41d9df09cb8918045b7b1d5bca52c5f25a4a05a83e0,0x4855ea22a7a8f4a1b70355a618d73fc33fde8c2896ab0563e53f372d10b02ee,(-0x4113cbb6a3c89d8c7c2ca457c9f527d5c6a4ddfb8f27812afa499f433460342));
(false,0x11c1f0bcdedfd92030d1b7f0a2b600a4e50ba7dce78642e9a9c147dc2bf12e36,0x132790b87e1464b5d113534db692b543389078bd54c3913e0b3c473845186839,0xfd06692626a60db613f5b4cd94944a793c65be35ffe77eb72a5e8f3e499a5e7,(-0x96b743fe31319d7aa4fe008c8e0ec2f80297bdb35f3259d20bdceca2ebd20eb),0x68426d3348f558c187098f77e03dccf1d4591b5a540f733b88f2693fd014094,0x264120b8844b348fdeed902b8e12746e11cee577f4a70d0507adca322e5c7ec);
(true,0x18876ed3ad87048daacabdfc8f8a4af41e8b195e5e8afd483cbf9b9540459749,0x2d5ab6bb6364cb38f2b25e9e751b25ac88b073d7c5615bc8786f453f4c0134b3,0x2e4992ce37ffe41a493c1cf41f533b687770a16498def344b2341e3ac7710e87,(-0x6b6ae24692a9d7caa653cd4991e764e3bec29e12a41804438674cd23cd64d83),0xc6ef1803eaa326b6b75131a2ebe245d8f02f151c7201e0f2c2cf0b32caf0af4,(-0xd47bed87a505bd86983f9e4c759424d4ff929a7b347bb491f735cadb78ff908));
(false,0x854e7aa2e809ddbfa990eb79b5ae447f70330568ed559f2c321622325b8b61c,0x43b5e1786033e8663514dd51728f0c915a4b858d86340fbd6af4e8febb74859,0x1e707a59d8555b2b1efebe02bd3ebc209864bb3a677283aef410fc9e16e629ab,(-0x7cf06b34f01c901749e7a38f1ce8562e6c950fb47016f6dc44cd1679c3e44f5),0x16f395847e8595bcf1ea3c57d829c459646a4521975aa5bf64184094fd1cf65,0x714807bd0750c37c928e50c594a3dae5845dd807e9f68e915fbf1f09aaa702a);
(true,0x12b20effa9ca62db37a3d48cc98e38921cffd178d5c8c4885562ead9b6e84ee3,0x1878bae350744b55bc7a50295b1495e7b88626de0d45e086d967b3d81d4e0c6a,0xfa96c1e45176883204a73f999c6fedbe8da9482ebfabe3e6ef5f1552b0b62a9,0x1668d1576add63353fd512a78fdc6bcad9344e0445acdfc079e5151e61d2eb99,0x73907d0c33e2bbc9476a186011b86a59ec7a6265c8593ac06dbd65c608a00eb,(-0x7d1c03f7f6bba03b54c79eec8ccd1ec5848446291954a17d260146cf30936e1));
(false,0x1400a96dba905041cfdeab67a98ef3035b1fcfebcaea4205db70f56b6fb39,0x59b9f8ca6aa4c262a9b254bc2af00f8733e78bcfd8071916fa35c6ff17a418a,0x2f443750b12292373ad108b394ded69c4aa82c1c8d16a0cfec48588f649043e4,(-0xa1d80eafedecd85a88eda009846d692e6f7b4129b160dba9af3cd3c04376),0x8449b6c0a234aaf33d4ba3025d64053a6771aca955a4fbdb9e8d04364,0x7cc180952a114071375dde11d879fc3db4d53b060f4b4ca8585a3ba4ed95);
(true,0x205c0bca38980b47a2436bc5da10c6178a88905d2765d1ac14ebbc595487c76,0x1db1b35ad07205067a2ce1b56376646ecc7597d7d716880c8efbdd6663ae5a8,0x25ed63f3d46f907425cab45374926f967025a209e27620855f3201b7f3b75ccd,0x200526a6b21729aea0864a4c114bfb4eb8bc6c353343e2b8160c18ab447bedc,0x15a3882c476e92b4e940709d6c51782d685f4dafdc8c458c8e8e8bdcbd2918,0x2824beba7d7a72624f0220f45b848160fda64f2924e66c4b9187f49072f42d);
(true,0x190606ffac1d3df77055315017e98bb3bc01783e168585a8312515a47ebba56b,0x45f7c7c952cf266fd4fb0f600862c4b1643e8b60a59edd4fd0357fe346ffebd,0x29ace61ced3b75a523b406d5af3c5fa322e2eb5502ae305deee582f3cc7ea6c2,0x2702d7a360ff0899b132872a6982f80ea889f25f86f54d7a55494f156440e772,0xcf093092f6abc2b47d5b7f761ba7188e0124bfdf0601670cdc3770717534ff4,(-0x14d35ee1bb791640e531209bdb22802346fca9be96f693596faf423970d47fa));
(true,0x25b1a10f4ea70c015c776da7560f21a85e2e8b12f1dfcf03468c1a4753b67fc5,0x1a04a00e3e12197ad3e6d5f23df90af38151e959f58c1b94e4e8a9905d365bcf,0xb470252c3fd9ea69b3b4cccc4bfbc6db8b4e6f5ffc5aacfef9b5012a670123d,0x3fbd2b31d52a14a26d1a1736244531fb45d3b237088a1f3aab9c7c59c9337cbf,0x1d5c63d675b36068589315f23bbdb32ed3397d6c61a9d1667475d01112ea9130,(-0x10dc296fce1bdf21e4978cace7f83e1563b7aa601619e288d4bf9fde8655b3df));
(false,0x25ac1199d83cc25e6c9ecbb4a27ba9670055f47a17c4799e43519b3a2bdee129,0x8da36fd7539b7a420a7e8c9cbf6eca5ba9a8363f18c376985acc79ca848769,0x2f248baa833eba7cad6a294794f2cca9e5016f6828b609790bdabf3189ec7338,(-0x14412c9b8e7a038d54aeeb653af69e4e4ea00110e00d5dac70c2c404923f87a5),0x1d53baecff18487beb73c31d61208450e2b05caa4cdc158175de1043c9786be8,0x13d2e94d850eec8108e7d4f8d656f0b0c1c734e4480d17cbb5da6b0111a34097);
(true,0x2c8856e030e03a8981c986a8085364103e3ca6457afaa7b2cf26a3ff3926b331,0x943da7af1a5e5e2e7fdd939ef7538aa1e7bdd274996fa6f0672aed6623d205c,0xdb88574f632ca0c87f62bed0dc0c80d36183601190b84ec3a33cb1bfa4a3436,0x56bf4cf81dc76e863723de80aee68b29c6fc2fb5ca01716604060d622ea0185b,0x28fb29a1a4146c2d1129bab395abaf43d46d676b3d0fac493c5370d9a11bcbb5,(-0x8045afd76e154b2af61652c9893c23f2b10c16993e8ca023e46e392fcc0c607));
(false,0x12ed1bb3eaf3fe93244cf522f91cfb3586266bc1730cfa9762fdcd975a4c8bd5,0x1a296c6e83f64a29e1ef9b6256019f3d41b4759dcbcade141089b032e9f26c34,0xbbce022cceb620dd224215d15eb178ed9933fae90b585a2270cb3dc0c497ede,(-0x39fa3cc696d94304b38b5bf11dc39c1c7f41e2f0ba714e5989597d72ceaf0e5),0x766f025ef1546042c914bf1a161b7b456b0f0ef339694831995c89b600aac18,(-0x69bbeb78be0b8bb48505ea8826485d0d26ebf658300bfa3273e3119193471d4));
(true,0x94bada0c2a76520ae83bad15a6b1539c34820fd39be33b36548b1a04ab9e21f,0x2b3a4003842498f8030d4a4fa9de8af134eeb51856f5a6693bcc5d9dcdd484d5,0x26968e06847fd33f8b906649f04da2c116dfaf926bdfc3e1cd9b74f10fbf42bb,(-0x25ebf58d1738935d5d1736f4195887b55ea482a748bc86ff94606fe1413b48b4),0x1c91d3019c396e9bcb23ca5eb15f943303007067608d41e1c19ef9f4ad33b5c,(-0x34735fafaf40fc16b7eb8a47d7ef5355a33e046e9be575f3dae8d35fa325428));
(true,0x20d60ce70f30baab7e9b31ded3a653158e038acffde784c82cf5e0b21612acfe,0x11b5c352a90bc54d831d14b3d1f5ac9e6a2b19cba638752477adc2198ccd58ca,0x2758be36916349ab76cbb64683ac1c541f2a7955d553d1b1e7aa79c7b5495a23,(-0x3f79b646079c4257b1d152fa72069f07f35a77d9744302a5f2902fb5907f3231),0x1647e6dc0484fbbfb52fea2f954910e5813d980a234f4f5bd078569671f151f0,0x115099c653aa1b77c397505e4321737a06ac3684cf6b9e2f73f531556f420b94);
(false,0xed6698f6fbc5737b9fa27705d725e89042482bb66aba26200cfb9c35cf017b2,0x2f1c2624862e0fb86a7a2667ecdf41b8c89ba7ba8b9d66ab3d52945d2c7f0e09,0x1da2632ad6450ea65c4f47db13da7f82f87660695d8d1a0fbbb17697624871,(-0x56e1c01d8d15339a3c881f8068e58b8ddb4bc049625115df5e41f154bc776d7),0x48ca43c3c8ea71e63d66500fc80cb263e8aa04ef6412b58289f88275e7d1f90,(-0x903af89abfe9f8d858eb6a403cac2be7555546d7b7c58af2fa01addb7db8c8e));
(true,0x2f019fc0ab126e0ac86377dbab3c550229838191f995c595bca6cca76724b4ce,0x2a78aed5394ae93a99e55fd39316a26036c912fa1ffcaf3ed0726b21cc3bdc33,0xbdcc037a1331b384370593d08ca0483f0bdcd13d8daaade13ef0e0ff5b5f73c,(-0x895c7b1962ff4d172effa5f786f1af7ed1595b38fdb05f4dc1339a0368bb5fb1),0x2da918a944db12c22f841b3055fb0e30da23170f0a37445d038a391ea783da09,0x48177e93fcbcd1d9efc14ad2a07e9e6ef0b468f1d57510569cbe5492a43a0c1);
(false,0x212565f9489f19cc55a00789ddfd85b34af62a79b9c7473fd12ac0156f856ac7,0x4452e8300ff9aaef77861257e8cbe3d680f0b25d0e883cb42cd298a42f2618,0xd8d2900956e7a8ef751fe3c824e02f50b03a603300affc0785e72006596b107,(-0x1d1744c3d6719c25edcaffb22023f48ef18a5e7f9b02ce2f21e6347f785f9d3c),0x16b417b86a7dfcb3582fbd122a48bb0e6a5053f031a7d2953ca7e618721536f3,0x1ce8785435e880b95c3cda5c49fca68c6e8278040eb6d3c3ab7f94dc98f9fa76);
(true,0x779ab181cb3f25331618812b147112ea5df61a5406d73400119c5b049d122e2,0x1f657292f61156bfeab890160ba283b003e5cb0ce47715b427040a40da9cc876,0x2b55a2ea65713496ff42114fc373bdb4f00516e05c061e497482226e374623bf,0x42ea8731e2e65fe6c114c0f0458d50867e3e53777084e10b36dbd3ac9feab84,0x1279c8eb88f41b84e3b55615162908a2c25d55aebe47e51235b3a327e932532,(-0x4cf05422abb2914945089b3a54dccd1d16543acb750fe9f12bb3ee68ba6332e));
(false,0x43597f3f7a1a1ad5a6777395b9d351fc338e617e457ab8b66c82cddaef0727f,0x983f2b525ce0aae75a07e070847f6843cfd3562a225d45971f2a2306f24b814,0x559ca480fba8d6d4294806dfd0d713a44a9292a7b07efc2373d9003333ed1d2,(-0x2bb22a0092884e374f1614e75cc8f2ca8b3533d52274085cfd1adc040010442),0x5dbbf401a0e14c09d6b6932a001db27ae63b4cfa5f927470d21e247ea074da,0x1e73eb54bec6e91521a9294c9b75b746d5d782a6ee9d986c02710f93ecb2b0b);
(true,0x149214e5dbe70587ff0f61a06c13db757c70cd62c486461412008aa7823f3827,0x239f687e09fc28cfc738d70c46896dad875f7677411a24c06982ee577c8a6875,0xf9e1107c1c43b42fea838e47aaa7fb85b6bc5e8943e8b6f7cf4494ff34470a6,(-0x110687ba00df19d37e89a30594ed7a2aff168174f0319b7bfa1c2418fa6ddac),0x8be8818a34dcd0b17e01c317813b7048f9bc0cfbd80182d6b390eb58388b20c,(-0xb1909ab0a3c1c3816664ae4832694d7e862bc0b859a2c92a501b2082bb5e049));
(true,0x9a3bef7682411722160861e27007b8de5185ce265fc29c789be5762218e0ebb,0x93ddad36db6297a79e214ee846448257223ae14b8d574936679e93ea683b2e7,0x1462b8cbdb04487db832b0feccf8b65a7a106f693145518039a1a8a1500f81ed,(-0x4872646e1aef575a5fbc93121f659bbd8daf2eab7b1f289d83e7e5a8a7a6f261),0x1eb92f5d2577e285d4d681539647e1db926ed18eaf98e7188d885c91e0604f8,0x5414e2701f951faa36de95775bdae69a8dbdc87cb81c33a9440364cdf96e621);
(true,0x270d5efb825ba55c430b5c5a71f84c4912dba0405ba82bd967d0a3ccf6c61128,0xf88f2d91d925a137efeacfdf718d69dd6239f4ec5ffa6a57ed9bd7dda5a9780,0x2720aacdf911ec3c5cce0bd8d8e706c740141ad353521cff144afa22281c80b1,0x1b9b9141684d1fdc218c5ca932b427d42a5a604ba8b66969500ad39e953225db,0x1f83e278aa33c3bb37cafc6aac0b7b53688386bed0dac9d6fe4d19b527fad07e,(-0x514275aeed18525bc6d8e7f7d4d56e95734a5ee5d3e7e6540045250a78a6b4a));
(false,0x11ef6256e74fe9486758d914a212ff7df3fc6bff6327ff46cdefd553bebeab5b,0x82c576d9ddcf9165314f3c09b4ac4d2e1984ba4fb5e5c1677a881543a1d233d,0x1a1a76c5e261194f23b8b2ad224ac06d3bf2ab9dc6d7cced36655905f4fb8826,(-0x5c1f242d1b919ab94234779f21a1d27dff9d28dd3135ab02f7d9867f5c880da),0x6a5ab7f3ba9c03fb4a4d39ef7a8a9b207a33f3b4101ee2385513825efda8d0d,0x2ba7a475d77486e1fc2603d8b6e4a7be8266be8550b59845394ba40c1c0e936);
(true,0xca6ec11569883a7392892c6d6e555054e785601c8689eef0a84ae8a60319fdf,0x68db4566843bfb47a2377abb454294201e8e796fece752eb2fff517c431d367,0x155d257fd5836f501f6bacc2bf07e22e62f459ef0fcfdb377d3845ef590d06d5,0x98217a3cc5d184bf7332f5a1f6780ceb6e795fe43b529cf8bbbe2a28badd31f,0x34ed0e81fc7f5924312146e1dbb6eafc2b294e54314774eb098a183be79b2a0,0x6c6826e24265af1eb9ac47e35b8d1d09ac3deefeb7767000300fe9ba68c199);
(true,0x15404a3228833406d771218b4d90ba518be69f67a5cef9319c04a059cd95a180,0xc1de5dceeb1faded15ce8af21d4693f66f5a2908603db29cfa00b7878b2dfe9,0xedf54a3ecf879c138666d6a858d93e15af12dbea78e52c1625a1d0b59c23033,0x1019e75f306083858792cf71b743654ce075ab1028f09ac0e12bd9e1bd13b86b,0x9551682b12b96c4c0d45e170ef46cbd8ded99e4b27d6675ab24a264cf1c9cef,(-0x2716e37dfba4183d43e9038755f33d621aa1fd240ac7c4f309995f896fad9b8));
(false,0xc617373f1729c175354694d96b268fed7293c767561033cfbceaa382edc70f,0x2b39e245bfee04462ef3f519e60f065b49c0385baf22a94574b5ada119e8b3be,0x1ca0099b929f356cb1043a9071283484bc72cba5b04eef06612f2f57fdc5a259,(-0x31998a2f93439f9ebaaa11245283d2ad836d542148fcab2e0114ca4ab87de1),0x32ae110dd74e6c8d4dddd9e1272f3c0f05270ccf9e0bb6b637ed2c54e9f7f,(-0x7f585f80433698bb6ccadee73e4a7087d638b8ef42342a1f11afedcefd8041));
(true,0xde80c597506ffb08aa26263f261d951ea7a8fa3313b99cc0a3c41ca6c187aca,0x6f3ad6e91c6e195c77b0d8d224b1300ffddb3621384fb4c215852100b466b0,0x1a64627f4cfbe924328a2ad64b4477fe3c4c7a45ca01806a7252c46b5cadffa3,(-0x636223c689a129d50992f5ceafedc0598821c9ab7c051cb31752dd6c583b5ca8),0x3ff0e96c1084852bff3f0ad2287ca8aa2b0b6fbddc6b4d13615d09c6f489908,0xc4c0ea22e864bc91e603451712b5ccdf7752f70b2e94ae6749b65a034e0b870);
(false,0xda89237fca881f49b91a713ce8400dc92ba7f4c7c54eea400009e5efc46f682,0xa15ad12af7887426bba8374245f71ac604c1a66ea37ffdb3689d53f5299b67e,0x1b434b42743d6006abc3c64642de761cb46343fdaa31d4789c94a1aeb5b8b869,(-0x1f64f555b88694d9c9641cfe4a741bcca4cdee8b9d08cd8eace175402f015b),0x3dae63313b92b13e39560fa424971daf53134cb24b76b153f0b9ce4c7555303,(-0x2b9471dc8275fd048af4bc0deb857fc7d60f8a5a16e3a5a4e74e890d618ec18));
(true,0x325be9a5a6497ecfa16e0e98f971efe43f21d158001aaaa735746664b692a93,0x1607cd9fb589de6211b080a2e214326d872020c368ff8536183db116124cbdc5,0x2b59f58c0e2fccb01436f8168e78677f8ce2cad4f4fb45f47224fb595bbcddad,(-0x2c2285e5d00fb735e6d54e5f8a8cbd02e855a198311efaf9cb360a73b7301da),0x3467fdcc4cf003ebdc59138873413930a29472157f86c7bffd007b600fa118,(-0xc6e72026a73f3f22b6cc5ab34b718c1d3f1eba1a941433d5b7dee3058aa8cd));
(false,0x28f23c488fcbf49f452eaf5da5e3526da766fc36d8cbb0ae7afe545eba5a661a,0xdac510091c9eff0449b51bfa1690fd99436b815ef19dd66b4d8703a9f3cb0ee,0x2024795e7aaa5a125c75639e0a1274fa5b9b449ffa8efce94817b62afd92b7b,(-0x12a40f7020c3a3961aac5a7e129fc5fb6fe66e977fe1109ac7f91564d413c85b),0x22a56efcc89977f8d1aba2eeaa984fe1047cdc89990d55f55cfa76454d2a8c90,0x7124de6f1ca4ae6dff6d91e38430cb7cbcbbc7e40dbeea6652dbf980a70fae2);
(true,0x461c85d4404909e4658638684f3a126d899dbfda76618b721cc90c5744de3c6,0x2a25319d3d3d7ee94034aa7804d92f548dba8393aaa7dbd19e861ff9b8fdcc28,0x35ccf6194ebb61073670039d052add84387d5b81ac3c1dc9d9dc6d550881ff1,(-0xb39e7deeeec69ebdb7e9f6520d31ab34f377273e06c718eaba535bf98b21438),0x6594519a84e9d9d6d62e75431bcf7e12c49c783293c86dc303f34ee56507e0,(-0x29405404b329382110b7d599a9baef36c37840dca355c4575cd3817c38ef978));
(true,0x19b4e8b6a36851d8511d22be57d260e7cfe283c3a3094053baddfbe0f7202f51,0x3031a40ab54e1c1c5ff54e0705c7a502b39edf14e57645a368e6e2a4a9e156a0,0x15c4ec09301f5693ada9bbb2c70c89f363a5cb8f417ac86dea022809c769f110,(-0x6a8aeffc693876dfac080efadce6ba64e2acdde9f162af3ad28eb822688556d2),0xda7e81ee3d917ed3249827827a5489b4497b640b1901952d7a9aeac59380647,(-0x33690ab8a1977fa7d0213cb7f3ffb7b06d83553fea654ddc407dcc114d907bf));
(true,0x29653b3ac75cfbb0d11343246f2b263d6937bf4674f55d0b8c2769f3cb743697,0x4feb4a93be9782c6a56ec4a695a6016bf5065cd0bd72980d8cf68e537773c98,0x1b15ad594c2559b0337e9e3a439e2f6ba3c1332b538b6e0ccdf315746b4415fc,(-0x6abf25401dddeab284e332e90ef07d529bb9334f38f1b89fb725c2a0cb962be0),0x23691b2b24927e216d1e588dd226d00980d174f3af9db65b42e748f08a261b7f,0x24f40ec552920006f53eeebd68cc0dd014a58856b6e4f4fc8abce66529dd84f4);
(true,0x1f32f77d3ff5368c1f4d7788afbc139230e99f499126bfc54d2bab562e4ab7f9,0x2c51e0ca099b8cb2f352082fbc170f77c081eb7aab4b4c7084d059a045c21118,0x19747befa6c67e80c909df36f08ce5d67edc9e4706e8b1f4498e50dcdb6ce388,0x216093995e7cdc734863e9a69e66b57590568a374784c3dc77d568e66edfb2c8,0x141d57c8fe2aa9387d482a91a98625539faf178f83cb883d7b4f758c91a95b4f,(-0x195a7d46605eadee6e8e731f1d218beea731c1d5b7ebd6c9074be89bd2a8f7dc));
(true,0x1a9016f2fd92266d1b45e5291954ee7f74026f5df250054cb00f67ed6498b903,0x10f02458a41e73b23f791e2074131df0ce5481e665fce4bf2b7c9130f4d56e0f,0xed6f67408de843fae0c671cdf648faf9bb860e9c172ea1a61bcc812d95e1a91,(-0x5dd38bc44b9423465919187db9ef1648daad797f2dbb61f90da818a308d249f0),0xe94a68c3768970529c081dc36ffa57208000f26756f722be719f9eb549a08e6,0xf07ba600480f91dc90207aeed6eaf22abd099547cea9c85d8804efcecb16cee);
(false,0x1801a93613c153016e2ae6bef60796bb67866f65ae2de9259db128799484bf17,0x2bfd1551d347144c940e76f555d3ec61f53bba34b141ae430f463965a1f72cee,0x287befe445e91ef53d238f3ddc1edf4b629f09c16f650673c32ec102515af8c5,(-0x8671908879c701f5202e0141c85bcb1531e820473e76981d05b64b61dc05d35),0xbe8c6312163a23208351388b236e5d982f6620632e643eae9c898df9f1a9bd5,(-0xd6b5d2cf3e190405937d40c71c663c9173b1f96ee63bbe79493b6155273a629));
(true,0x2df04c2dc9f1dd6a0b296b8da1c797148f46ed79b251290cf6a479d6c7b2a460,0x124d2e22393d9d5f407fa20abb04c5607b43132fceebf2d6f3996bf041d520af,0x1f16c1ff22291b958ffd2c46787dc9cb95c1c8f96b5e91cada010382774c28e5,(-0x2b182dfb4b64c6fa679f7b17ee6fe14572c8da9294e6ff9ae28ca2a96eb7e994),0x2b9c1ff226fa9dc3a7e277aca9007929ac0753cc0ffeec2b04a7c4533ae01163,0x18628bdc5d4ac2279dd251c00f40213648650162832153d076b94ddbce3e815a);
(true,0x13cbdf52a74e874e5de6d76341eea0e4c6dfaaf76c2c08f4300327ec10a861a2,0x2c69471ff22aae64c109d7d8eb608eea0554a54f2344a3d270fd5ddec87e4c73,0x8ceae4a0cf15a6b1e43b9f0e36d4b3e887b53bfe4cdee667afd10f2d5da1df,0x4abe6d46b0bfd24d15bb52bb6561b3e2084bf75b4738b604617f3f8149e8807,0x81930feb52bb0cc2af283a8aec0ec28fdeee7b51733190090fbe7fc1395eb35,(-0xaae5d7b4b04239adb907100b09d9a812667031f3431bea08232de0282f5eed4));
(true,0x2f1a8d7f619caacd1e7f3109063fa15cfc7550b9e3a7f68c985e1cdd32b1c1c1,0x1b215a85f74776bb55d33e2aabc80c38959f014eeb62335ddff06eceb69b8854,0x254427a1d02bfb415e51be5718d96bc5d848cc6562e7e13a2b42956f6e1da351,(-0x7933e1d1ee080a6d168218c7f0bcfc468e39431f55c35bef5fa3d3d48cbd51db),0x2dd99391a487b2435aeeff3b0eacfeb658e764809fd6bcb92e214ca04a096301,0x10d22ae63f6672f28b937e2c30e0b4805f66c434ebb90f01602dd6a8542d9cd9);
(false,0x1ed6a5b2d0f7e34a7f771c4051ab90ecfbbe1eccd3e9580d91d41805bc02aa71,0x1957d1d72aaffc4e3aaf3c303f1fc034132bdddce7b0fa6e64847f553c5c6a43,0x273af2b68b7e5b13c6e361642c1e976587da221fab60b77fdfcb822abe023935,(-0x114a09c3aafda5f398c8a211071060d2c5a772271fc9eb65419707b5d492f80c),0x13a6fda3183ec6c1495c1f10b69933751631d9e07f87658707cc4e29ebf232ef,0x12392226a81a084ac7e728eb09595bb5ac683f7ee79ecd2bb7fc76f6b0a26ad);
(true,0x3f90020ef50ef013183acfa6cbdc41fdddf6464616279bd987de482ab6d8116,0x2369e35d5c270744da58137803ee3e7cf0cc89337037d881befef33f82a5117b,0x12cf959d3b957b7e198f5587bac121b295da0fb51f2bbf6dd73fe6844ae396d9,(-0x216030b0bbecff26dd83a07343d3e21859e67917d6ea0c2bf7984365376a6e09),0x537d3d6afe98a36ae5a2ca5c20070d7cc133b64bd46378180d7658539dbe85,(-0xd3a49419a0cf2ff250db1ed92ae92f7d9ed7a16496041143a2cc632f161932));
(true,0x17b2670480f64263c86f40787394ef11bada6e427a6dbdbe8a5b0ca3379c68b6,0x23c18eba6151f4e9b1c2f9705eefe769a625ec9a6c69f00c4b35b4dde503bc8a,0x20082deb8f4f410ffe4a69d3b7f324334a2f2e737f24a37fd9f06621c96f0b0f,(-0x3b5342b243ea9447ce33a08af3d7ff2fd7953ad3c37e6d5be1ecddae7a5ba6c9),0xb9aa4a87484b1a4a8be739cc07fd49061a3f0e0acffa53033528002ae2150fc,(-0x2aee3db39a289efa1580db627eb15e3b73b4f138ee9703236dc6b6f59935de));
(true,0x1a10f99b8eb7335dee5cb3987e197b0b1136a3d9613347b91933c8d60b79b440,0x2297fc78778165fb6a8ba896f3282ee16dcf2daa402cb8b6e9c030d7f1b32140,0x2834589f49378448e2d4e25f14355a72e50d05f744843bb19c2dcf14326b4b9,(-0x2cc0429c73f6d11500a6f133811413a19e8264e4eb32270bd4d1eaba75d9d8f4),0xe0a67c9431cd626174ea67da8d09f91cce9fc93dc09d9c25f363f63a09082f4,0xa04980c7036fc80bbd0717e6bc0b0c73c988a8bc9ca472eed00f4f1c398b88);
(true,0x2821929916f7c0550a8820159d9527079e75b13e35f50fe129f7ccd13491b04e,0x1556f8dceed248e05894ca1e4f99b1ccf0c3653766fa49e360969e92c3e772bf,0x80c8397d076ec9be466d96e5017af27a6770625471de15b16f2c70f4df27122,(-0x46059ed7d0598d87d937fc606f13999028bc38ac02db197c0ec2e95adac9689c),0x2147d51a210a8045fab12dd1aa576a6e0a0cd1033331e3f8acda189e257097d3,0xafdd01bcd9330c78683e3ece71c792d69e6a4535eab70fd15fa921590ca6c75);
(false,0x2afb6cd8dd4174876fb647624eb274663b462d4f1ff555b5a8f7d8d1b3a4b9f,0x198282b45b2f8645ee19e54bba62643904c077459ce03f67eaf19547b310836d,0x146bb5f7e0767b02af1f340503f78c969b9dc0fb9b8fbd01fc04521935bf6a95,(-0x12f445109373418b8ca3d9a470cdedef935688c6b954867ef155fb4fe76c50e),0x262d5be4fa31e52406862d938c45b02294009c51db7596a949f03998422ecc,(-0x3b432ef9f420c55d19345d411c35350127209977f214b3f40ee55bdedca06f));
(true,0x1737025e1ad137f6fcded04796fe7fb752ac3b87651968281128aa35c04b1901,0xda8779079ce159414f3679446edd3697d945c6ecacb08f7547703fe1e7e135e,0x1add333ccdd37d1824d862c2d3d6a2818223da074f0f85c65c8e6d8a9b45d4c,(-0x14bff2a3b7de6cbfc9ca868ba7a2cd3ead6aef3d9b401c9aedd8e90440cfede7),0xb23062493db6f26aed308602564e302ab0a47b6d946102d238e91494be28a6f,0x5af837c33432f2af4da4ab0bb09d44dae7b071dec41d04c7b841b36662f8662);
(true,0x17fb9f70320653fbf75b45c642f62e505fa7bb68479573da6587003b01688473,0x2a3ed3e059a4bb9d9c4f59b1734010ebfbd729614d10a7965a32661b5c32e469,0x595d91ea7c37070e0a715ec3b26b96bad4712748aac4e97655e5a5d0d5de091,(-0x9e67af4d31230e1ba63fb219aef1b4ceefbfde6c1e1b6ea23d6a290615e769c),0xbe2c946161d8db8a0fb98b26e18ce8295e64a9c17a166fd75d1eeac628eed5c,(-0xe2af772a1ea5ec93c0f00dbd377df8858f453db5cbd313f5c7a0f60e0240ec2));
(false,0x16a1c092d3cee3b45250b2840cf56119492a00075dc039fc3f2794accfa8bdc4,0x2b2597eea9c80226ce889e52a83c842f6299f3200bc5a733c6e2673e847cd5c8,0x2d160dffc7261e7e45d208d31d8fd74d9b494a87a44e873e74b5bcdf89348bef,(-0x13c1de7adff720ebe1e97c229bd5f97e27192db3f226f466b33b3dcb77f2e4e7),0xa959deff6276fc1e9ac2a10b90e94008bf6bdb97ca0bf700b990f23d9d5d432,(-0x6beca3453457c96197d43a587ac2372e6aa7ad247e266db7f7810a2e316fe4));
(true,0x978ed0826091a030ff17d66de9b007728f79c70e79dcf6c1bec95a922760822,0xf333a97addfd9fb6d2ba72b2e66a7a0ba01b0f58fec937e9ed106aa8ce23290,0x1b79cde0b51c2b45e797ea69ac7dd7060be1cc6e1b7d6e53b94a8e72a842770c,(-0x61c2ad78681451e062c65e6fca1d6b74fd701380c3e76b9d79c87dd003b99e9c),0x1daa99fa3ee0a485a838cd8ea75a842c87d91fde6f424be2e89a020239ba87c,0x5786af0d8e57fa3503058372ed8bd65b587b2dd8ea888837c0d7548b581c863);
(true,0x24fba357ab49d6fcd8778a36d82f44d33f0028512356b6880a935c20f529a9d3,0x202bf3d8c2ac39257332a2414ecae2469085d63ae4efc71caef3c2cd9c3d269a,0x16e04263eb0be6ff45910d989940fb44d2be0817c8dacfe8b43a31d40f6098a3,0x1bac43afe16230aac7ca79770f15129e1e525be07e5a2f1baa76d4446e07caf8,0x1c438bf79ff6f1a28841c584d1d6a260a7c133a40800a73c6f50af7431ad41d9,(-0xcf86941d40a749f31de4740c1c23155c20ca96febf46cb1c90b6fc2dc23252b));
(true,0xdbd316a4401ffdabeed844c21edd205758e37604aa6cb722f6e478b9c87bec6,0x2b0ec7887fc1225063a5198eb488b0507fab700c24091849bfbd9cb1ec7c78b8,0x201a2d9664f17f5275faa5064559b6aaa073547a58b38964936576596075ad47,(-0x332cdde91a3339a893fde3293501aed82e2f04d89538a9a2ed1eb9c97cf927f8),0x3e69311d284d6d27610a8b694c6e8de0e598f4025b1dd4241cf6077c1262708,(-0x31736ebe3f4d26686e9c24a7f4a55a0d6bd8d183c412df14c3f0c4f9cfe60f2));
(true,0x1a7cc0a22457ed9f6ed2e7f7677bc3bb4dab9fd2e9600347f1c6ceaab678e1da,0xcabb240622be31c7b7505ae0faf1126a92cacaabe59f194551bb9c879b70ab9,0x25318a5e0969348d53d92ab584218acce87cfdd866f19c76382d0fcb7d242f9a,(-0x4fcadad0adb4aa06ee1428bac77cfe5585e53fea0ca5f6aa0e72caff3cc3e98c),0xe7f73b318fffb68702fbfaa68d68e79cfa34b19284beca28226954cf74a342d,0x10a1e3a7dc07a0d25c9c069e21206a0e0d3617619d471e88c33ef0d907175713);
(true,0x193a759517edbed75ed67b286cfa075921211c5b7157414902a0405ea5c5223e,0x10dafbfaf5bd887e3f7cf44d738f30101688ee8eba257217b1a525e6e069e84d,0x26cc819e573beac98df0bfbb13774dc0c1457c88cf6979de5f60548b1e70d7d4,0x1cd3e25994b150ce97e858da5e9634baeeb56f2a47bcc07be07997d527e978d3,0xd27058e206de578c3480ecc75bda7401d4906384b579fed07b752049f1adb13,(-0x22e80045fbfaf9e64965d3daa8af5fc41dd2f61636865ed463f7a7d49ae278a));
(false,0x10ca57f24fbc63ef305c268664f707ae710c594e95ca6f6252d80cd0aca11101,0xcb679087dbb66afb5c83faf71f76554f481e7692c82ef417e77bf85243ba7ae,0xd110e2628b2ba3042f22b3c1d630e1baca42dc0e937bc3348554ea8ed1af7e6,(-0x5d929202c695ddf3946f933ae7fc61e5ee3be279c62218bba4f5219724f94b6),0x5d36307f588a2857e409fa547b1cf52ad89d0f047a1666faa0d05c37976ec53,0x16ff69e7a73c25c4ef07200933d162a38a986f2bfab308898026e0f4de07f73);
(true,0x1b503f719c0d232446354b81dedee24efb12ce0dabe4e5e4028072abeac7b9eb,0x117efefa5a7f806177b7a97040512566ec43c65743847277ea8e78c3b5cef1aa,0x1de956e4af173c9bfeb0c208255ddb330302a450302b06b437bcff10952c4e3a,0x4bb271b503f9fced2024d3903c57364ec3adb1e53399b3fdd1728ad7032d2c8,0xf6a96486d8a7fee77c5feb2c1f61816b58b80200edad2d479a12b894e534b35,(-0x2b3263b3c5b580f4b52a10abb56f7398a10edd7126c69b76051980b8e7f39ec));
(false,0x2ae1494815b55d8c1295bef470e30f9c3b9d5ecde6954d2d5bdb407324c81c9e,0x1661cf4ff10102a758384185a526a92831f1b37fd3f060ba51b3489f7b082a8,0x975e3f804e5059ece3d1192a4e2b46b41d66036ce4a5fc6f40108671babfe61,(-0xf80d75a8ee45e960b4765ae3924448d0b3f915e2f7da855a26dac002e2f7e3a),0x25fefaf974f4fddc5cdb3db123ad22a42a40a2b99d583603b4f8726420020dc7,0xe438457f1409a099b35380401339a6a11f63d1404e40a0d0ddf3e1671f288d7);
(true,0x6316f89b2a683cbe0e2d836fc7e8b40bf57834c882ebfd72355300ca3dc52de,0x972d24fb8b1e1d155b651830299f14c94894fc6d2593cc07fb0df3d194cf0ee,0x2dee149f726ceae8dc23e48b833f21805b8a8450caf523376243e8621d5166ce,0x24cd7d2ec92adca11dab6006f742c6b25808bbb610035d95745bef1c398d8a4,0xcae6cabb4e641242af69be972c0b02aaf1485adeef9d1b6adfeccfcb9cb68a,(-0x107b9e6a3a9a5a3139e57394582d3dfc205039a491c170a85cf5011ad4f4485));
(false,0x1a473f7596853a2cc622abf7803b11cb56d90aa007ca3b1fbb75f9987f3a2093,0xdd48ac847d4dc5b533c4ba2fa2fdf8a4d2aa5eef4ca332a6667534c57d6a7e4,0x199f053784228a16e08cf6891ebc61767fd8adf8bf07f4f7d0adcfb95d357e7,(-0x5217f694c21381b0eaf38a3ab0891c1bec039e28df5863a411bacf15e343ddd),0xe451c8836ed283e8b915afd5c580e46d980eea7492aca9f5bdbd46d5569daba,(-0x26121597b73328538ecd8bfa1f5feb08cf7b1821a79e3bd920edfc9a39881d1));
(true,0x112ac69b25aedf1c57bfdd858a633c64e213bed6571c2d8d16be4384adbad91e,0x10967fbe3cba2a24fe87fb4f9633bf267c18bd9479e28fb1fc946ef8cd218937,0x90ad081f06ea44280dd7d4c8218cdd32a9912e55109d9c7276b07d2b38d382b,(-0xab8c6e392d85fdfbe259797819636bd28792d38bfdabae37bb8776f79f3bc94),0x6170e25d1847bf3b5f4884d551d321c4a5671c9d7e9bf79443bdbc9840413d3,(-0xfa708805ee5efa5c3be73218d3a4fa0f326fb88f2ed5eb72ba939500f2ccd4));
(false,0x25591440398d763199a300b58ebf59b583b270025f858d432008867667ee1924,0x6fc22b6633eae8f195c9a42821729ee1fa2516eff25337c9e2e833a8b262e2c,0x67e35e93a93225421fdcf94f5090b805ac1c2c06a85889acccdeed52537ad9c,(-0xccd5fbb4127504c5dbd184d36ef054b2d86848539ca2625bd39dc501f3c3699),0x1cd3130533d339ed9d69907e548281dbdc9b563c9a261d3ba6e888b07c88a2f4,0x7695271bbcc2047acd69056f0ff47802b8ce8ef17f93a216aeed21432a89d93);
(true,0x1425f8c8e67d7b1124e9ebc9e66698196ba235bfda0b288b7c1f8036626a2733,0x6a6a5051dce21a40735a5b127b55ed97f1ae5f4fcfab5757f5365535e94c19a,0xeea0262b8ba2e0f77665763182dd6a0902ac2048c46ba0e841f22d2f21821b2,0x261d917295aab6bebea94c035be145134eaed26f3702303fbcefeb3992142c8,0x8639039a8f0ecd6e3d083b68c6cd64b1684193d7884589f30ab8007688c7791,0x239849153ae5e4cdfc2cbbdf155dbe3c0c77b68050af1053a8c7b617ce35f8);
(false,0xeef78f971f44ce0fe195bbfdb78d6e742b0c3b689021fd08c3c9b98345c92c0,0xfe81e9a0cacb714900982cfca269aab8c7c44680058bda8edb2e21c8d8f48bd,0x2bad79f057001c3d7c457392bf57fae841771f25bb544382a2628d77aa54c1f1,(-0x20d7f2be08fa10d5b2f0cc07e0fb3388092709bf0d703b71fcb49d38a865c70),0x49c0f4ee1f0b6a672bbf6f5d59551ea798a8ef7c9e3e72dcf5d74c235c58118,(-0x2db4de9be52411cd7a00d02a0eee1e1abf7e620115a3d51464418d71d497285));
(true,0x16ef2108d833d4701e0af8711ce3d35fc07ef08a3b05501f1182dbf79f977622,0x226d4e0581b9718d91b595954a58199853afe57ecdd4c1e48bc61c2b787e5535,0x20af01c7f492f1fe2037bb56f0ef303f54289cd00e646bea7050db3c9bd936d3,0x19b6c3ccefdd425cd73e53546a7788c476c60f759b6beff3884aa9c9cea9a7cf,0xade79aad2b3c2d30f4e9a6080bcd59b2fb8c55d27a1bec8b9933087169f9203,(-0x8c6f770835d2e56d5b374681f6c59abc2cbc306f93b93d5d0b1a7e54e1d93ac));
(true,0x14a235b5fc6daf089defaf9bbe6928f0e9f0a5b93b91587108754895235a79c,0xa70da3cef51fa31931ecf87af96ba99cc88b7d2713a92598c8506ad368fb6ca,0xb5f74263d7ed669178e74fdd2acfb04673927d922270dd47de6fd8d7c55ad1b,(-0x47bbf84eae7196cc0e977bad1ef5258683fa5025c766b73ebd94ccdd5ba63ba5),0x8cc43a9d20c5d85b20a9b60b634741f8966942e99c031c798e9028bc44944,0xa3a3520f2ac19217d2216598869b74a7418ee5adb84eaa5b067cead075c68a);
(true,0x28cb70d401b09f03851f69929421b11ef94dec3cbf2ef77770d2bcaa44945047,0x2919c5c2691daf1e7ee5f13d7bff024cf706feac5832310e0e1746437ad84ad4,0x2460cafcf310eb8801acf49d496d7a16d6886296175636e20deaff0a53ed735c,0xc6ab4635c7dbbaf15a7d6edcff18b6cc53bf3db142e6c5127aea89d117899c2,0x2263e74b896a251f67cb873616cda64b30d5f60571283f5747278ee40b4c8aef,(-0x19d8b3b080614ce6851eab5c9df8ad3016baa7b481e4d646261e16e5dedc015b));
(true,0x2126fa8f847daadc2709260cb3dee099a1d1fd49306040c1b76f4b0a9027312f,0x17fe84d62eb1d9c38df900361f80f362d5cb8e041046323dcfbd07fbe17f6305,0x2460d44b307807b4339e612a28ba84f8e9f6165a55b7655863edeb6df3a9f36b,(-0x36e1639fbf06782ca5b94e94b8956b520e9a57b8b023c6b2b92b8d05168551d8),0x16b6420470114338bdf0c3acc6c1feb0f8eb4d0f2ce82e2717259e8bf01e2c6c,0xbb82365e0fb9f0c8af71e33e65060fd0a708ee042838d6b30610a79017bf3f6);
(true,0x26ad428a8400c1cb8b07b2c320bdf0f5f5d93a089343f18fa67a79548deeac40,0xd29f363743a1d8997641b1e82e5c21be6b3c4b96dd1f51a3063cf7878a911da,0x441de269537447c7488548e0f1b796e08262cde18670006387946ea3e7b1f11,0x1675719bf97b670191fe143ba16afe7639357ca8653abb8aa0c933a49acee9a3,0x1ee981c23b45646ada41923d16fbada1cc8fea696e3566dc4bf4ad9e09592504,0x8a7f43d704eb78cbf5d1bed887e047b6a8fe68f73542f6af79abf5a2be8939c);
(false,0x14d46a55ed85569eca73126bad7eb3021c2b311039c759885467756db98e2405,0x145d2add2dc22a7ab66f2f4518b18dbfed196383e2aa2e691309f8635393858b,0x2dda9a1860e09d478ba875d6554b21a95022b9a49e621c8af78e6e1fb64152f0,(-0x5aa8f436cfda3edcbcd536c7171fba675dc9d0b7a00ba821b14734392b86f62),0x8f74820eeb02ca5f0f3af95c2830fc477e57e5ca9d03350da19070f09c91735,(-0x31964a36251ccce8ba538a62e422266a1e4b9d428c3c10839c32f498599c6da));
(true,0xc1019f9ad28eff79ae4c79aaca8048cb7ec99928ae3b321a68d1364f8ba9ea5,0x5bf824eb7f3487fa0d6a1ddd269a7da0f42e48531116f15c9417d4068aeaf59,0x1036c9f6b07447b31ced9b1eba7e45555276fd3c2459eb58358a49c181e6c30a,(-0x2d905cf1eaa566b4e03f008e63c59f01c374345c6d51adb0bdd748a6d111e1d),0x301c9bfcbfb1ea76ff96782ba9f83903666ed6bd408cca994ccabc8629951c6,0x3a4b42e33552ba608322ad3a570732158c65509de9bc5b32d23f2f1493da9c0);
(false,0x2b909321aa6617f19f757ff5efdfb6972f49977555d558fdbbcb5dcd515bc0ac,0x5794e56ac1ccb14cc095ee1745c49c90d426ba1abb7322591e1f46abcf20cb6,0x12a1271d66e8740ef464252b847d1aff4826d51bd0055a401680a77ba117ebb3,(-0x52cb9e8ece110de69884b02e1acc55c3c894a40a453f9534d8a5b8f65f33f28),0x27381b69639834e56067c2203ce9c2c1bfa07355dcde4c4b8caf894651364c80,0x3f334489c791390645232ee21b5f11c023017debdeae95c127fc2352e31a81);
(true,0x12be5486802680c1db2af4107bd4b7158dcc7d8a093d0156d65b89eea9e917e,0x31700bca9a06c0f3de1e5b733615e5ec61b34cebee571660f359c959ab50a98,0x2297cbc89db46d33f9b34fc0c5bfa839efd0495e7322c941ffaa24476de1d37,(-0xf49fcaa9a8a740f8b67c6be0f7a529766a6f53c536798decb0e21620b4e248),0x742864d57a902dfcc4756dc82dfe841e1c63744ecd29a1cc90d40253d7a00,0xec631981e396aba8c0fe04eda65c6dbc3399e620a31ad957e74b6ceeac656);
(false,0x13c165a9c16d6c470fa330cd793bccef56fae7f36394677db91df486b668e497,0x266dea27b71079c31f1c70001ef6a68697d2e8e04da5151918be13f573587397,0xe7c04907246e4a688f94e359e833de0c48527ac1017bbcb8e26335cb83bf63e,(-0x142eb2f3deff618768172288ebe456afb789817060e26263d326feb41be7144),0x810a135434ee6e2cf4c33a44a25c8ad2fdeaf79602cf360f42a584519052297,(-0xe6d4ebb41f8cdb7cfc068191cbe7a2baa8e8daab85af1b6c5d0e9777ed72a32));
(true,0x185dcf5a05ec1ef404d97cb5308e5473ce87daa76f2954384228e890133dbea5,0x2811cec000c4629ef044d44fb145d7ed9ab71e305a07e0c1e2e3f5e0b9da9c92,0xd1b822cba083f75a8b3fd5836c1b58b893ee5254091a502e762a9ec6ea87eb2,(-0x4cf79224a33aca3f9b48c43a9d4ea148ddce0f6bc52bca5b098607e55b6ca801),0xc44e31fdc874a0caf8dc6c4e594c7b03bd52b680d0308a71e25c18ae301211f,(-0xd36d1abb8f5b7299833f3c2b2b05c875a668dff58dce3212f7aa13854f7111));
(false,0xf6e90f678bf7b860aa218e4366ac0bdf3dfe764d820a2b01fc6b68faec23fb8,0x2261e08532a57a4013dda6887a38b43777608ce57e9d2231c5524b0883f5d536,0x1f693ec128ece9b75ec0bfd383d54bb71012db8208b87b1fff43b55e01c70fe7,(-0xcc7294b64c323d8b0b4e272b4de89c04f5cc45742625bc9a57fe4982fa7a738),0x4ebd0a1363aa1fd2434abb507f7db2ae9782dcb3be9272865d43569b7c80951,0x1d049e5e2472a6fe6f15455e3cc5450563d8c7cded3807d105f8a416ab2abc1);
(true,0xd14cd04acc48f4a626bb0c82df2546bd40a1546a4ffe1904838ac0cc536923b,0x2c43c96c6bd0769ad86fa2fdc62dbdca28144c224274f4f9e5edc97de5de4a84,0x19124b4bd2a07e5da19660350efabc0909cd591e5e01064d3a00b8661332fcfb,(-0x384dc23f911f3f59014d756f7d8ec32ae7fe0d208de7bcb9e9838eb113fa3dbe),0x3893f0603a9a0a46f2ba54cd1ff70024017f0d753a505d06bcef4b7073dc68f,(-0x2abe24af83e1ee414b1516d0d2de6037a79fb1b9481699d9221c0cfd182dd44));
(false,0x168f7bede7dff322591979f2a032fa4a72e40270fa658fe7da5576732f74fd0,0xf35b55a42f530a4ddee71274fb858c30a282615d00587ef877d1d26ac0334c2,0x27d35a848b3c956338627b78fa4bd5e6afedb1f0114978dcb1484addffaca8a0,(-0x14a2ee0e191c2cc90b9d848d1bdbed466a81f56500c4e79deb04fa05327f151),0xa848e7ef724391af8529eb6a9ad07aaacd919d88a822512b7a342823dc0ff,0xd8baa61dcc97cc51b62051f186fcaf42f057cc785e7be59b7240cc21bcf853);
(true,0x41b5bf39dcc6f483100b7cc1318d16c912438123be41faf27f123216a5a7dd2,0x17715958c59b9568b5d1ca9d8c333fb2b6aca4ad487941ba082a8ab4c305551d,0x9efb91c7517fc92ab941d03f41e5674727dd05a7d51929c82a24e5c1f93b8f8,(-0x794f0333f59766c510627549fefb81e14834731c08dc345c5c7c1c3d4ff3f14),0x5939cbd5ba6ef8d3aeb02a3f2ba4feb60321ea233f3d4483c1d409af8016c5,(-0xb2de885d7b85ef4780643404bc9da1e3562fb53b75df70a4484e71f58131d2));
(true,0x85a968a080100e1c8ec4fef9eb12d106e76d4191d3043c596a3b7d32cbfb521,0x9ba76085b94d95d37d19b83ac3f51ce40a0dfec28401e924fd3247c71a9e732,0x14418c80624783b3d912634507ed8b67b6e1da0a51ee334f97190f936678863c,(-0x1ea3935b5298246600ca18e3dfc45033bcf6a9f2734eab9fd7e86254a3343a3d),0x1712efc728cc21fcf6e9782a7505fe538e344d19e6d2c5d4b57c19978933303,0x25e15450c97198d4c4fe32795b6e04578e094b9cff9b3de00c6e112cef8e3b1);
(false,0x2b65474a6068663b17d0ff16451020a1f962ba0578c14ef8b06596ea500bed49,0x2c0df97cfc57efb8f8346c55cd1a2349d8773be3aa468353b5d86ffd42bdc29b,0x2b0b40ff5e7d6bd1eee938f2cc170dacf6bd24f940d224ef645cb62963392306,(-0x8b9557e9182272109aa35882ed00c01f5695a979550d2df5cb5ad78666561c9),0x26ea4db09e5e97dead713d3528879d2c0fc554efd68488308884b212ff401865,(-0x1ec83fa4cd75bd0e8e96bc988bc225cca07d5a1071d57b73f6a60971b323c4b5));
(true,0xdf52e762496fa7d1623bcbf6342c29e4d3d07114e786b29bc67a27b29855d17,0x1bffa020d073729f7a2dc8943eae9a71a7a263bf1ae9868e97ab444839cdbe92,0x3013744dfb99c845ba793176c523064942cb498d32271bba0c980071839eced1,(-0x5f7cdec3dc66995e25a3e88dd2cd2f5e4f7379f65d5195fed94cf79efcebd551),0x4069e81302e43d25daebd51007a11f8aa1a06ba64ae428d0c20c18cc56d89ef,0x4a18e2c88edcf3ac7f7c903d9326ab0d11fc3d26a12233af13a50c20d08ec48);
(true,0x46d94197ac63f443bf5d56b89e8ad376348aac3e73812ba564286c93f7e7fdb,0x19892eb8ad191d0fe33338abb5ed107916339044de9d57baf445f792dd3d4d66,0x3e6bb53a1faa48e1b6c42cbb26ca1ec6c45adfd20f6541d83cc5a0fc85e3258,(-0x27ccc5ba43710bdfdc9756d3478d50f0078cd724daa2f1ea8b3a6aaf7356c71a),0x67ba1420915a85cd36b978dc29084397df2c1c9068cfa6b2ad59573e827a39,0x39b020d46a599f1f27962249048f653008c718bd9da475b9e1d35423adf22d);
(false,0x81ef7f8edea1eb6844b58914201c309c85996704c0d8749a36e3c71e250c64f,0x275ffe9b774b0c153c8edeb9b89d90a2c634ad4cdc2dc2ddf501037503e1bef0,0x201c6c98caf008125836be59e218b395f7f9b5e8bce3e006c636dd8f14c9e4a3,(-0x4490cebc7918459b02f152a862c04fd754a9b9c34c7656b997bde1591c27a03),0x15ce2e5b53fcd172b68345dc269ea967166bc834b168b4236798847f886dca6,(-0x2528b4da4955f0d0b1fdd243fc550c6fb12511e5f4de5413494af9ff248e367));
(true,0x2bce751a66a0c1d0e94fd5d8411c8b8c8a0d66c926257980500866c8eaeb101f,0x20ce0552579ca692e31587dc29fb7c2a4854c6ab65126d93575ebb346de3a03f,0x21db10298586ad5bfc15e4c88556a9c06420a8b5fb60b82724ccf1b4fb64268b,(-0x25fa5e40a60a61e3a291648939ae533f9963b80f06ff89ce5e9ca42af6b0ab4a),0x27a7d6055de2a984ec4a70dc26b88d5489903f00dffd7a571565d71170e6964e,0x5f2995983335554733ce671acfce38dc0bcf6c9147ccf3d4b6e551bf1631e37);
(false,0x25213f86b5b4e75604570a5f56215b8c29750e1b2ea550fea08bd047e8b28bd9,0x2f8fb053a5374a54f0fb396eabb7c23d6b9397225ce4ea475f8d1fef28146510,0x1c33efe0a6b31d91b86254a547130bec90575eddaa8bbcdd695b7bc66c5c2967,(-0x192b9930b26f54ea85d986709be9801752996df74763194fed2e79a9b21cf653),0x1c7d25aea2d3402ec0a0b417d4112615bcb79a8ed423d89396d95298880b4ed7,(-0xb52836b33b2614d8483ecfc2b3a3dc481a6ddeeed2cd30ab20621bd8127e08d));
(true,0x25bcc5f50aeda3288d964b633677a125d81beca89f9d9f0b9e6d8dae7b3aeaaf,0xbab293c8aecd035a75d828242a26fda80154d114c5c0b7a38f0b1ef418e8f2d,0x1160d5b9280fb8693ac1aa8cd3b5fad21bdd9c466c75856c32f8140f6d42497c,(-0x603f836d2a2720332a01b3b7cd7005fac041b2ab7a8caa4a9e3ca05c63f44162),0x1d6dc2d249fa1ad9fcde297cd9c09bffc9d95334bde4b799170f3814e002fd0c,0x1bfd7d5ff423e046b4ad88767c6c7019b51a8fde29bfefbd2856df22eaa37166);
(true,0x8c47adb37d932755efd1f77486e63d7d467c197fe4c80ec201876905037e47e,0x77cfcc2167bd9c74b38b59c1ccf03a7d8bbe13643a25c6148d943a2756ba8b0,0xaa42a5d30d5cb4ab1ba09540684bd92f25f46ebefe12418ba8bfa704683375b,(-0x224cdd7e06959dc8f5bef1c14e57be502e36d5da01cd18407aebe67b992b87d),0x196a61852dc53e9baaf99ab9d9e6f66a8d151b5991c022550f11410c2f2b636,0xc1e424f59124ab7e7ded54e506f6fbf298485e65938c008b3aa3b606d79159);
(true,0x2df6f16ad800f5ff58541fddf596a5c1ff20b5d5d7db45df6dc6143bf7c52a24,0x2fa7957d17e6e537fa8b71605ce06ef7ed0861a3e996622a718b86509cbc51ce,0x19cc9a3a7c907f43515393f49bd85efdf9c9f187d480cd73ef2d719e85a24a06,0x10bd24e6b113116af5e6ad2b4ff6f9ca7f290a31708a6ba3a1b54323695cd4a8,0x2ba8bed9f5e322fa24eeb181baf4f8c84c5a997a68eee9d89a781f14f16ae80e,(-0x2626d98da97977950210f2c247bd29490d9833740a3ffd3d9bfb01636a31261f));
(false,0x13ca70ed1693f62710c0bb4f82cbdb564f56d575e64f4a56758ffa257fc3bf8d,0xbef95b1e7bd0fe93124f2fc885c0bd44b4325302b1d5f4d8a4fb66908bb3645,0x2773e8f391affede28b28e55458fd64dde92bc2a482d351ee8ae994cfaa4868,(-0x137d42648456f988c38b2c3e9619b124bd3b1421615db36c5de2365adc189073),0x818054328e2618a11604d6f317cf878819110fcbc6fc0ba0960a89fb2160e43,0xe9b9e33e3a7dfeb5f6705901998a5e3498abad7aef3c65acc364c2a6f7a8041);
(true,0x5085192402d00d88c817eaa927e8b85a742206abf3092d25f279643c7bc63a5,0x1832efd24c21edfd225df0ea4f1aa050b957aa62bcdfa3059a3ee911741e7eee,0x3bb3b577cb573936082fad9c69c4caab22c73e2a28348a4ea07cd091d255e60,(-0x851b1c30f0875d4724cde0978b1dd7a0fc66250736529aa1ce2e16fbcb9dded),0x85fa7571c034a29ffbc98b7e72f43440193190533a7660106d2e90fb138897,(-0x14679e0988c18145201cc5884b8f6ed9a8ec18b845251372e203d0ceab51a23));
(true,0x300729d4dfec0e9368061084271ee3ff6f7b65d5dbd6d145cffa1c17e8619f01,0x3052b8a947930750261aba5bcc979a5c31b880ccbe6d91505e97af8420ec1cc9,0x72cfb92667a95de97f2c1378aa795b3b12c19d629d66d42d4c72dfd59779878,(-0x1ce57b2e8ea570b9ede7ec7119f25fda2c385f33ab8c35722d44706ecda5ca94),0x2faab87e3a84b320b84ec5480da7da35b9c18be4885f25fb0e9a1e1e36657fc4,(-0x17f159e2fac9dc006a3ccea0aa87096f361f60b3c9eb7c4fc2de7030389b8635));
(true,0x22755096af8bcf41561f4efd833b9327a99058ea3df1a007846cb4150cfe0c92,0xbd26d69cf9217fd2f837a2736326fd8a0dd5f4fb2b1876cff8cd1ebde16aec7,0x1aa3f664f43dc369ff27806e3c23d9c3c2e4a4d15e7ba71a23f8121eaf20234b,(-0x868b5ef301eeb580d7962c71de8fb5bf6b9ec2975ea338fcfb20910339d38055),0x18895fed10c6017cdbc7aa480cdfa510ea5be6974c11fb438036fd6af467b73d,0x19fdc576d1234e9e0d1a65b286832dffbfe72a7945bea244eb72e83b816ee817);
(false,0xcd215c14273a25f3419a6268f903e3f73a2405de2391452924f2a6d74787de5,0x44ddad20419384a76385655ac7f6229ded90237f4a4eb5aa3553f68afdab545,0xe49354ca46b667987aced83c7b81e758768bca809e2e434f0edecc0f4b6be58,(-0x321cdc9a50028626b1dd4825e13fda8e5a4077ccdc1d6729b08732cd8e3c603),0x3658949380f74347e8f4de84c2a2e3d5d00e256dd260e38169e4da5251d54d4,0x1fde28b989da8f9a62f6d0b365e912487eeff43bc141347be21777dfb8380a1);
(true,0xf6a4f273b950b0266bb87cf4a7675d4597f3708378d3814bdff7a19f443351f,0x1daa51cb5e705962c688e7cb522f94388d73b2f3bc80fd07762b5b8e4cf1fa91,0xe649891472ec91fc9fa247665cf4cb4409d8eeafbab9076b73861f7be3b8076,0x7f4022b6447de20c12f27fc716db03688eddd23a96f3a20c92d9283a53456d3,0x4e919ef6231ffd488e1000536bf15ba6562217b4bcb905dd7addd116e69612a,(-0x8142e9c54b4b1b16968cb6667711417230f8168bdf31ab255df57a9d30361ee));
(false,0x8b026eded330832eb1ced5b09d323467f5733086387527b1b82a8343257869a,0x2391f904a49f31ff4a7131e74464690d26aa1e858f4077db334b23e12971a4b0,0x19c7d291742c4dbf6d291930e490889ad76fe999d2786aec8b9cc68db0ea1940,(-0x55374f4ff65abba2798af37b1116b7d27b0fa45acf7d2e4af5a1506103a7a74),0x18f50f79c50129cf1af5db16894a8de3edaff4242347e7be33236b63c56c88e,(-0x10f65942e67908723d5ee659e88f1b8c81ab4cca6544f24e3c3d647e920c0c4));
(true,0x2d66404c74a46fc6330fc398be410a96411aa572394cb536b1442da06af327fc,0x2b6643625ff81ff5c8611bfe7c80aaae38f832f0a2223f2e67d4e9ecf143c935,0x2afb6898c69e451be0488258cd133bf8c92ccda72bc1fcd860a6b6ab6c72b90,(-0x1e10808fabf2b78849197e8e6fbc1fea657a0fdc360c173aaebbabf7edae2300),0x2a9791014cf861be8c1d0def5d4db3303a0ffd7340468cd31b67ea91d733982d,(-0x75859eb9bdbdbcc0a0753ea89a3866fbbe2c99718f52100ba7327e8b2a39d64));
(false,0x1bf8c7bb94720af4b6a8289ac784d2dd2dfbf24e813832e54ade9c38358529ab,0xbc0d9521bcaddfe52b34a395194ea895d575a10dddf7b3c70f5e0c469169d67,0x6c1065c466759b1707b8dbbf7b15f5a6eccf4c81298672c58b9e88d05e4d9a1,(-0x19160947361b28f8acc444868f01666783baea7307027e9d550c5142907f1f62),0x102b20805b430244330c451cdbccf0bf6603e49c29341e89cbbbe44791657f84,0x124ad6d6f3ea24e630bb839d94f96dcc06fee0c4a15ac41c9eb92f2b5f1699cf);
(true,0xe5ee4161d20dc899c24ba12f40fd727772330deb68b8c9dbc73053845d99441,0x106863fc1a08fb07d7f160d10ff2254cb3bb5edede5262d32198a2125d3e866,0x18267a1d2d7d61faaa42ac5cdbb995df00ce70ea8b51a1d3137710ddb4948d91,(-0x48d6e9106d0602a37d0eff5fe9c5608027711e11058e99bd83c32cc85dc3d67),0x4448049ad6ad60c8d4869be1f1b94632dc60a82841b75d3f982fcb0e4fdd2cb,0x32f8fcc31c1828d00be9840c66f13c5a4bbd4cea66cbeade4b1ac046853f8f9);
(false,0x13ae82990bd0df9cda83e73b46e9ede241e7eb9cb7d46af11bec80dd7f636aa6,0x1092b84608b0c62302ebd86be320ba051cdc5f59dd892748d37cc69babe82a92,0xbc42887916800e6f34ed0e0e977d2d74a872ccda9c101f02c49023da7ffe5d5,(-0x6ac5ca4366e4906183d3d26c73adc8f46479f8ead60f431b934ce1c34af619),0x8013cd971e21059146a221f311efba132c398df6f06bf0a0bd145af9c1f337d,(-0x652ce21f507aed505e434cdccdeb64793768a78d1f46642ad37bc688f3ecba2));
(true,0x183faff29bc7234ce4ff36a1959e56f3028c5c8e843d3d9362f81aa775f5db8b,0x111915b82aeeb6068de8d9905f851dfe9c25c2b81b88c860240797b957a5c00c,0x224c28ee11faa3a59dfa516665deca70b03f4fb06303d8a68ba79f4adee7e2ea,(-0x53c5f43084be461410f36e124f41c6730f6295b39436ab4bbbfe51a2d87e492),0xc26a01ee44782f78c68178257e8ba1b4b90c98e49a74e3170a65ac20c3a55ef,(-0x43544d3d0677d6a4717f01a1f461a9526ef0af913f24857a932deb35b75a9b));
(false,0xdb35c0a13d22d6378aa846b3f54b7a703f8c9daf758393cbeb125ae3e421567,0x2c3aa0f563951c5830b85ec4ee6a0fe54da0dbc4ba9bd4600f792cdc0d5cd86b,0x2529c399d2747680ac2008621b65b794f957b3a807036a5328936f29b7ab93d0,(-0x4d73be5bfcca25e84d77fdaf9af904b6e452980a28f238ca56b68d61058c1d3),0x3e0ffa3c92d35e36ecf87ff8fa2979f1f72c896d584ec14860b1bb833ed09bf,(-0x7ae69940e6e828bd117986e8b91b327b89ec9fd1801f84b6e87e35c09fe7df5));
(true,0xf3de17fe1fd024ea26ea892062d7b7b87dacf42dec66a2ea7160b01826fe463,0x1e764ed335610e1b81b8ec8bfca1f380a6a9bef0db56c5da6178cd510a1dce59,0x27442d99d1443ccf188b18e8242df9d4d25062b6a337201e2bc4258725ea96d5,(-0x61dcde70d937b457b285fafba83237d1e112f5252853fac4aa564b9fa0b3dbdd),0x4ccf48b33a479cc7921becf977b612c103fb510622f0c82d320df783f626d16,0x4560980ac4455fb202cd8b2da102dcb7c2f5eaea3cca0dffaee8ba282fcafa7);
(false,0x17605fd26c5e866723be1f5ce757ab9f2245950d4b06a8bd3f12f3e1e4e68829,0x11d182c0742c0f62e89f5edfac3b8dfe87efd61d532e2886284444493cb15c36,0x1c6139691fc6bd205f9b0d47de59e00b76ab499bc5409cb1c1ba46b52f2dc391,(-0xeb719b0457f411a91bfea95cc347c8a63909ae356d3496935438e59d451cf13),0xb4ad99a5c3b98e854a6c48038851c585f030e4106864144169e07ce9ff3d077,0x61b967f12b6e53611228633c6862b96abd3168c04da53333295e37f534d37a3);
(true,0x273021a2296aee1d39768189b1051434b15d423a98cb38ec49d5e97dad435ace,0x1832571a4b21339e3d16ce6e509175be7412fe2d76ef3af75f6bd1ed2970e6d1,0xaabec6cd4ad90e62c04f31082933bf55adb8c9915d6a9b0210fc24a1306e9c6,0x1a480e812e6024f6d1ac5b26a66577d14add7e20bfa2d2b5efbb01056929bf50,0x1fbc15dfb5ff464777cd1497aacb007842777dcb5d50a5669b93a773de73b4c1,(-0x52a46a68c5dcb24e6c22783e6bc11c11f4713ba85750f4ac381e11c9bee0fe7));
(true,0x240abf878ffcafcd1c936a1d668c4b9210f7c3f73ef5a4f62bd5925182f34617,0x2901ca12016e191cbb113955fc113efcf6e253316d0910150491dafd176424b8,0x14462fe5de8da467b6f17fe337a973a936384cd1e0f9de1252adb0f1d8aec92e,(-0x1466585cf9800077ddea912aa9eb05d335efd573c3d107a5de3ff907eebf1eb9),0x1ad809168fe8e4679914bae5e4e235291d7097e2fa544b7475e943c0d35a9e11,(-0xc852feb20e82acf3b295f0800ec9c04c4895352a2cf8248223f343bf62bd423));
(true,0x22b67915c02d345abcdf4ab250c21047b4a072502b391aa3cbf6e0480453f0e,0x2f90893deedf7b01a4569000a9eb036ef24cfa349f43d22997637f4be3092d10,0x1f05cd915b4363610328283ff71e3e5754487329bafe6a3ab7ddc8b5090252a1,(-0x666df0cbba7c8e61465def1c9770ca8765f3ee429b22b114347198aa6a309688),0x18e682f33ecd0740a0d890b57e61d72e5181a366e5d2e39864014a9136b19c,(-0x4b436135c6b72dcd9e6d95b6b8f52f9e6dbd82c6a95b0c223f99b2a7dd35e9));
(true,0x18209d4738ccdd095d0af05ca53336a11ad0552e9497bf7240437b1afb7af20c,0x128455990f2842f5a874c6fc292bba9828acc816d694c93769503685de899f9e,0x2951606f5421bbfa765fc59c402f761df6cf08e92663cf3e303dff2d1ea56f0d,(-0x6d51d785b44667b4a5a49ae742d0e9c02de4eb888572dbaf9a436c8159f394d8),0xc079005cfe5163ce9c9d0d7438a2a270bc0e3b9589e41ea2ef5b87584e0f39e,0xe7b92b0245a0f36f242c39596a6d16c8495fe2cc75e0cc6469734259825ac06);
(true,0xc6d5cc2c25578cbfb5a6057c0e876fb6ba0cdd4d7b40f8ac5384d186d7d815d,0x1879d4ae8476d7a93bdc3d35ad324b270b30d4b024b085b15445a8656291b924,0x3fe5822c30073c560deefd1534648ee493f43e0a17f4274e470d21ee7efa48f,(-0x8fd802ca8e87654e29b86f7266c32b81d72cf07016de60edd694a39f30516),0x330fc47e09cd617fe8243e65bd653e3248af74c6bc98ae4e5a0f6bc273bb1cf,(-0x187c0c81b8d4235e7f03649fa0eb8bf27ab140465dd418d571db264bb22e366));
(true,0xd6ee858e4f024ed74c8811fd6729d56d27e475eeb92e59c4a5ef09258999379,0x1503c5c3bab2ad9a7659c58e0b5d47706da22d5f4f02016b573314efecdf3cde,0x213fbded10afe2950b98f21b6326584f6e02c52a43440e3e32ac45f83619b46a,(-0x22ebea56b03d8dd5069bf31258e74d876d66bb0f3f340fd34a5fd18287bbeaee),0x3ba9de6feec90de0511bc4051a65b719bba5d8f3da543b6c8daa0fb73ca391d,0xf5f6aee28a752bccc96a6c7985fe5adf834551448e86e3d5f79898a247737b);
(true,0x265094859027fa50fbb51792d7192618522c54336e097694028e70157d7b1135,0x2efd507363a18a35bff82efd86a1f9074078ca632f672ffb00300e8f31f4aa02,0x115a52aa35ea5a154faea72c1f974826dbdecd8cbfc53e423e293c73195a95bc,0x1945d6ca435ecc9b4fe47d538504128669832e0b57ca1e8f295d44f57f9dc2e8,0x1e560d939e0cc773045fc64182dfc293cf6bdb8cab4b6a46c74ee65476e1166d,(-0x1490d95a7c064321b6a15d9fc49b90085f192be28379210f89ba7a45aa89a996));
(true,0x1d88921a8368d4ee73ad10a0355afff796ca74747fd1dbaa1e09ee1ab0d11aa4,0x1b9c88df8b874fdc2c069273d21783ffb76d9463e965a3d38f9da8be95e598fc,0xb41edc1793af6ace00e4c566d275851708fad5d900b8e3a9ca0bb360774a6d5,(-0x73b3e28d5f1c37fda248e48b6767f3b3885a13371f814349c5dfcb0ba640fd74),0x12063563e78abe11b88c576951367524ce9c4ea574fd73a9f0021d73789a9b70,0xbd38f07236a11f07032d66aab4bdf01e0f553487749b3aaa1945f311ae76601);
(true,0x2fc5d77504ec52cf143ce624bae3fb43552c8dca9a53fce0ac0f5427037d71fc,0x3b345240dfaf2e495b06985dce9d91a087a34d961dc2b19c568ea32f307f3d7,0x3c75b15909a1702abdfe3fec2b1a09c56638c9ea5e7c602653f488cec1cb06f,(-0x190963be74863e4ca83f42c0353a450c2e96d2698c68e1348d73ccb3489d8a68),0x2f296760a067bb91e1ce7c52cda64cce2f396c318238bf2402e69c6c836e2037,0x179af6eb4c9b93be5bbba45e08e54910d27c63e43729e48be6060d7e221f7498);
(true,0x2d1706a6e9bd484093e09ae8129e36c07ffee3204614e19f14e3d278f506b016,0x17c14b0650460217297d8b8ffced936a39f0584a8d1826cdc675e951abb52771,0x2959a52d8393fcd0e4a9c9d33e4dacb74fda1188a25bf24dabc62b8a11ad6b23,0x631674bd349da8e091db87aa93cb1250ebc100af62ea1844d7da74bd899ba17,0x2a036bba21becf50f3b98de9396e7558be475723c3122c069bbf34b0ca3ba593,(-0x12afb7baba372ef04b37cad867ba2b1323cbea5d05b0b1a38466864cc9d32dc2));
(true,0x12d801024879727ba748aff9d9291f7516d0094dd6f7909288c155942730bf72,0xd2317bb54363264efbde99123aa1bc386b46959cdcaa65a9c8914e4ad7d19de,0x2ce36f6306145225fcc1219f63615198772aea7fcb27458589108cf641c6a726,(-0x2c7a3488519189094998dbec2bedc09016f33bd1cb935e7d6817c57ef1bb151),0x75677541f4fe225e4b9f85a233222ac6d96c72d767ca7c12d66c1e76cde5bdc,0x42277769e78efa730e361eba7aae64c0dfe14bb20c23992f8f725677b13aaeb);
(true,0x2cff03b756b0e5c41f60a6b9b91b97d9ad0540d758f3ced0cff3628b0a83e3b2,0x299ba585017381eeac5b8ef6766e3343499483e8b9f4a1c2e6efa1ce10bd7430,0x19c0f6ec951a6c225088c535efa5b425612da5c38aa594036c27d48e1aec29a3,0x48c72f8b15bb4a7fef42348543a20951bfdf07804bc336d28c9f7e0eebb37c54,0x29d6b89b497181c82e6736b378e42faa103814501c4ba4cc263838acf4fa0d68,(-0x1a791d08698e56964cb85cb52b68418de75460ef75282cc64661fdc43daee04b));
(true,0x22673e958c1e673562ac71786bb884d96c2b41982757d275a1ecec69c9f934dd,0xa723e583d74e082bad60221a00efd94323c962a4265037068e575b90fb49fbd,0x154ad75605b6f1ad3d5523e83041f703ec27c39f18b41cbecf70dff81e78090a,(-0x46b505f059390b5491099b419922221148ab4ca3ee201ea73a5d87ac4f5844de),0x18755a4620fc1bf8ffbaf88418b9a3a6eb4320a89899b76917e6fcc45a2f31f4,0x1627644861bb3da5a96d4f8d8065b5afa18fd0e0090c777295facd832a860f96);
(true,0x8d5d1c800dc32d43d15055167e25801cff3b7122659e23da1334715fd3dc2ae,0x106cb30e9e71e72cc8a056e9b8ee9ca315d71741d515595b590e65f1449e39cc,0x1ed9dc2fb1d104bfe204b4ae85b3fc56cfdef309409ce818f046b16f2731e39e,0x1028ad6d6899545dcbcb13b7fe6332b78b8fe8e15565ef200b29b512683459b,0x19cf4c5ddd63906d7e4ea60cd8112ecf0660b830cbbe828e5027aec823cea12,(-0x1176d0e87c005250b0176138493e8b652ade2aabe1b6200d087441cf1343d56));
(true,0x896c414dd3e0803d8a35dabc672c9541deb64be0a2485bf8436607ccf393d57,0xe970d5d08a9435126d46d51638ee45addcc4db8e6542237c42681f2fcebc9e9,0x19d52f07ee259199b35fb87a2c35df5a890a1a45f15f52d170d8def106996da0,(-0x5c5cc0006d8cb24e3b57ed4301c9466fda6ca0273980ce4ccd4215e36469554),0x18640b99b4977d4decd4db10af90119680b6e4a80e1060ef07585bc30a1c170,0x535b3b9cb2a8d0e085f896c9a3521fbb469c9dd188c1803c015ea98c628c61);
(true,0x233dc8e6ea4b1280f9a1c57aaa14e3ac2719189926e064ca6e9b21e0e7c431dc,0x2a5c5ef456a1e90378cef7455d22318b635627d5de9b75f9ead7c60dbc51d5dc,0x15f15886aeae8ce16c4edbca1f9dde6b6590cd0234923fb05adb01848ba06e60,0x186dc4a146c04f7395e531349c2d78baebb62b4f6a271300442cffd1fe17834b,0x19aa1d7e068bda42c5adae6e2e2586f120c20ce0a4e6996f34859a263ab6828e,(-0x14395c9895565fb5a51c1d8c14273e27a4aecf4286dda77de37d2908608c578c));
(true,0x18e1ff19fec26b66704e65d395fb336b13e9fa00bcc14443000c2432f3fde11a,0x1f63a436ebb4f2a562c6ca2b9459114f3cc46aa7c896a464345704a7cba2675,0xb04418ceb8c32f347e3133c0ea784bd1dfd6b7b8c2dab3c3ff55a1f4a494dad,(-0x58adbf2b6d82ea7430cfe6e7b50667e1bc3ad57e9dffd4b0e896cfc339f226d0),0xccb6a753dd81b1d0df48815183be80ca760f7d6b15434bd637300f0d54db751,0x14c5deffc912e3d17239e8e334ee0c6a0e0557a38bb53d78a8626e3f159b39cf);
(true,0xa2f22ba685419e652fa540833d16692ee881ca6b7180a3cb871b33ac1590ed7,0x772c1302bff692776c87b4a3b72c345b0cbf8ab935091d9e2aafe2ece76979d,0x2ec1b20435b44ef6fc56760168aaaea2939e443f9353c5e004b0b08e9d8ce3d1,0x465f8c203b6f84a4dbe921276aa4c6fad873f300a5e21b2cd4e63d1fca837fd,0x224acd8f3a02e3144e05ec0272d63b24ede5ebf5d33ca5fcd739d7c59b028a6,(-0x12795a8132a3a022adb36fd0de27a8bc32600e882e7aec07fb0fcd88003b83a));
(true,0x4776eff38681dea6005b3ec653f20cdee4dc51a9f9812180656918e93c907f3,0x1f5924777cb78c9acadb1cea2d9dd575ed748aa26e25677b62b0d38a5587019b,0x264c174bcdd4eeb41e62c8d447ed008051cce36eb4093017963abb39ba096117,0x5312759e12062408d8a752f18deee0f340f27b4640a71073fa3e83d81c5b03d,0x6989cbac0d9e15e0d041f8b78255dd4c4d280fe65145e72c0558559d301b8c,(-0x234b943886a3d87ac4b0e24bff450e2e1a8451f439a7bcc6977d7675c7b4dee));
(true,0xe879c89382024ec9abe14a5fdb25aff73930d02f94c161586564731042e6240,0x1b290f9fbc1f2b07794fae4c3f28b182411e08dea36e11b70e7adc0ef77900cf,0x28a772b7b03b9751c98a94820aa9fe243cdb0a4d2f3a1ddb0b8354d3a09ba7c1,(-0x25ecaa339dc4a618ba16522bd8ce0f53e54c26ee171256af12c59cd5bdab851d),0x45cd1f13bc7d1003d4720e754ab2ecac0d9b25aef8354a47607300ee55785ad,0x141e4f6b071efa5052b179b863263358432f6edd0e3459697771a3d417e2098);
(true,0x923a1c39eb534e5e21c8fdd5e64aed15a8a134b3d3106c008e74f5159082cb7,0x463d92f82a67532c9286a0793b3708efc6d19c0cbe4c2cde3a53c9814675cf,0x91f8d97572d154eb52240240ef3de5cf90fdd81526466dc38da3fbc3bd99c2d,(-0x1e605d23bac2984ed8dcb7de95c817d2d11ae627a57ef0ff1dea588ef0eb5ca3),0x1b9dbc0c1c450178645908b97a9a66aa7838cecd3d9068d3a40a6f3acd0137c,0x513e0576c903c9a2ad16676cfb8f229a299662e3d27da9071f591e660c49f5e);
(true,0x1998226536e8378b4aa78829ae2a70367ecfeeef92b0832b00db592053517623,0x2a202ea6d300915fbd7f14494e7a70fd36e5b697ee30ec985602e856e97887d2,0x314dcadff9b95c896cae3a28cded48c42baa7a4f5c1d46615fcbde763819027,0x9a5567dea766bb2fd2dc5aa4455dab4f8b67fdbb9687d1d9224f96aca88effd,0xd8966f7d6b532015056621fb50b6af9298ebb4bb072e1f4ecaeff274ab2685f,(-0x162291816cb6370a9cbd929ef01c532c982cf93db8da0296d9d2aef987265fdb));
(true,0x913318719a23f5d74dbeac8e020ccf7333f4cb0b4c955e4a7d0aed61714adc4,0xffc78613994e4e749fc497e46ccbf14fb14d056bc783d970c01930d9601c790,0xbb9d95eed44d08466bc38cad32b1c475d7ce55a98e9edb3c879569359cc934d,(-0x6cdb70f15175ecdbeffb4f9287d3821bafff9ee715a72aae3e9c2ae82b6b7a4c),0x1b3abd1697d05130bae97c3785e6c1dc983c58fa382633999e3a92162e0a044,0x4e6e78ddee1f9e6431dbb87f0be243d20968cc1a450176b2037c5a86011c84c);
(true,0x71a0606656bd5d073d6dcf93c85e95ae6f6ab25db7ef1191f9cced853323de2,0x11d8e8417c7b60d24eee117dabf250b7877b0fbc590859b8345a8be8d34e35ec,0x1bd8a9685a7019760f8a1a922af42e9a207ec7ebbd57bec3033207af2075cfe4,(-0xc66c624e218e308b5fc6c37cc5e183532ebbfbdc370ef76e6ff213276a6a094),0x10accfe9c8091c59bacc9b7b8686354f6b7ee1a8d307d33c83edd58787af1c8,(-0x45eb2ce306138c8cd0982701de593b4db85e5eb6e4587c0cd7ef23475190cf));
(true,0x17b3c8d7a71d652e4a2a6a32036c7530294747b9837130cdead0a329e484a557,0x184097963a0a9b55651325224318253adf1962c8efbaa64dd096b6d411958000,0x199b075faa5a426210531970dde5b3132da855fad93915852685402426fc84b7,0x7881415ab266832963d848ad22a4f2c51814d14fdafe80aa58740456d638178,0xb9bff39914c79dced9fa617bd1bd9c3f22201b2e15604beeced3b04ebc782ff,(-0x3231dd9cfb531d13110100e9a02bcdace45178f320937e11db94d38bd95e6e1));
(true,0x19d0d0fed800dfed752986167c5f873013011269a177cac9331e51bd73d4e5ab,0x1445028b80c702b04a6dd07717c91b1a958549f4f2183300a71421f853a14ac,0x2a083c981a781106b64de60dad47dbea03c7c2d3084adc058e54f604acccb97,(-0x924bf1cdeec83f3da893cd11ba630dcdac880744000e898fda076e9dc20b14a),0xdc59e93d94cb57a5cde278c4dc2dd2c761fb65ba36e4598d3c34fa2f8040a8b,0xc431953fbd364c3903424154bcae653d9a3bdd08347556fe8e8e131a66843c2);
(true,0x266d8a1ede905128be4166cf5d7be87904123f456a04533ce315af2d4fa6bffc,0x16c372d654908a9ae463a429149fd61b49e61926c29d6b83d6c2945ebebf69f5,0xbd73965d13c74f86c48cf10239fafde44a4c6cd431c0f50e55bfd943ac76190,0x4129da8cab34b8d49363c399c80930eba4366ff9bcf3afdf589f4cad9b97ea8,0x1e83fa81ac3246de2cbd7815b72299c205801c2933a82182c865be85d85e62a5,(-0x1112088b916a8db10fba26a0ef8df872652f4c0215bce3895eb308910eb07d65));
(true,0x1df8fcb700d2697efcbecd3051bea54b885fc00fd54077df3637bb19f7608fbb,0x1,0x30644e72e131a029b85045b68181585d97816a916871ca8d3c208c16d87cfd45,(-0x1174c2d810add357f88f2f234a2e6ded699216772abaae0e690e216cfe82cc1d),0x129071a71e364ad24dfecdfb9c1fe926e6e824c588b6e40930dc980c43aecae2,0xe195dd29d438e2f206b5489f160ec2e13f1ad06b0555943682ac6d8446711e1)
].
Definition gk_steps : list (bool * Z * Z * Z * Z * Z * Z) := [
(true,0x60c89ce5c263404f3a037dbd790c24a58cad3ca809cec543c2e444539ca1454,0x6ce1b0827aafa85ddeb49cdaa36306d19a74caa311e13d46d8bc688cdbffffe,0x1c122f81a3a14964909ede0ba2a6855fc93faf6fa1a788bf467be7e7a43f80ac,0xb3c4d79d41a91750f7d69a30b34fb0e3fb90ba94910094dd,0xc19139cb84c6809606cce01bde2b317f7b4b3f07abe13fd7baffc9b06d3b90,(-0xd9c36104f55f50b24287daea505b52747c85c87a16113bd8768199bc206adc));
(false,0x203b2ab2b9551cd53e103b7067ce263e806ba3cf9680a3da39fe991749a1a3d3,0x2941b0928df1b9480273773b36397da3e495430a2a7a3857661bc7a446c94f4d,0x13ae7e938c892308bef0f45ee7386daa2d3b447349a7d0a11b5aa4cfbe69072c,(-0x4885201220ff80dfcba485bce98fd60ca0f2309312a170ab027cd87465abb07),0x1577a58374c0cee92fd42a5d40f7d8af14368de0dd4b866f1c4a028089b3109d,(-0x16f23cea07f107a805bbd108a816c039d93f88cc57c21bf7415a5689ca8332f5));
(true,0x2d60a3159754bf35115953e6f464ffdef2c13944873018c6f82c3b688904a589,0x1136be4fd725da12b061e315eaadf48e38656fb0f6aa00ae3984454ca590471a,0x27e08c4b441fb4e4e03c96c677893a680c8bddfe0fbd218e8cbba9ab91c15278,(-0x449be9f697ea1aa530f894674965ebcdc2f476dd805ec0fa755dff62e1677263),0x2a8d08f9450e3bc47bcfa60911cd4de98c9a35e42e8764e17649da12d62efd9d,0x168b8dc845e39109187491a0dbfde09aac989bca77b4c3a8aaafb851956fe8a7);
(true,0x1492644b3f7e7c2f916acf0d3b91c8929a61e1cbad695ae36a8fadf3a420910,0x46563cec84c3b7fcc7c4e4894fba28a0245edadcdf26987525be186ac746bd5,0x260f0d842b5e759c809c4cc926ffec5f06e81beba74608ec602820d087735ba9,(-0x1040344cb51aaa9c7ddab858881a3e2e6950743c6c21f73c74c9a9c6c9278cec),0x8becb992d6dd2ba0e81d9835f3289e3f4bd90dcddde7d4f30838764fd26f7,0x572ef965a423c6e2a0de960297f4a26a696fd64492a8123baf48a38d08732f);
(true,0x1d1c575019f5ecfc72444d14986d6a51ca0a34a4a86c6cf08f8eb462c43d43dd,0xae9f05a22220392b8961d3d54072267f87d0e008417cc9e0a3eabd75c8d793f,0x2f8734d2ae3c5630d212752ea98bd637ba179e062a4f8de0f3dea8ed3aef81b9,0x2c9768f90b578406803305a2c38b1d808a2325f843cfad200bf70fe24a557a1f,0x11830c98d4b5dba007a99d4dd1cb4e43d306117c83803dd68da641211bd91be0,(-0x3ebbc9000b7bc5a8d55263203a0a1f756aea30cfd11301549b8fd7bf0c82fe4));
(true,0x383f211be37e4ca009ce93c273012db5dda34dd3905a064e45a6b89e124a13f,0x1e0870da5c567b040aa1d91dd52b12380c08bbbf9e7a2dc4e2b2c98d8d2589a,0x23139691e3c022c93ee7a46124d0a51989976d17cca2e4d53f4191e02bca0b32,(-0x7a9614e0c21f60f5d639a4abe170de385b36fc59f787fb0338455b91634d75),0x41605763a86025459b13cea415c280b6373fb56463e13c0824f2477b5b0269,0xa80ea5c481e137a325c11bc11409c27fb88e57316dd7e8fba6f207500f40b0);
(true,0x2ffde0444e7d06a4e0d1244a34fef438e3a447b21addec68dc714f5e6150107e,0xbd655c22ed761862aa87dc274337e9afad8c141bdf8bed91bc531b99ae56e33,0xc8b01b28e8bf1674c7672e7236b5c849f0005b3d09e20969a179ed25808969b,0x455ac45817c6fc26fb5e4d3679e8c30eb9524ffbadd76735ebd466f7ed928f4c,0x2f984ae5ea92e0d4aa462705375aafbcb1d88314bdfdad70c09e854c4f45de9d,(-0x9e0b98ed3c5db26026dee97192eebd95428f2c6245f6f83eaecf3dca360d31b));
(true,0x1967ebfd291f50b238e3e24a8f39203206cfac1533101a13e72d5ca82cb5655,0x23059f0cc4ff9a7298651bc8c5e0bc5682e5248f0fa2ad3201ed6a323fd21e4d,0x108ebd8a1dce2e45cc8fe02dd2805e83239a5394886ea0d78832bdee77a58e13,(-0x7dd0ca904bd0ed97b7f54849dd2a63101041c6b39d9904aed15a26d6753738d),0xd56974936f0c2dab4788e302dbb1a3e6c8679607d0ba8291f1c0f464e3d86,(-0xc2c0df41d331115b804a6141d41586795737a5f2265ea6c96cb72cee0b5950));
(false,0x2f777315feb3fca43cb7f84854bdd7ba8d9b4a40523761e310efce998c37302c,0x1053208b1074095798deb347d356eff9e64d1bc7eb6a5bb012d91e654ed64144,0xcd457982d0d28230bb7ac366acbe20c637e5749df8654640d146af5cfa345c0,(-0x225a343d5dc517c3b561836ce367bf776ca0149f210589918779b98a0ab90e29),0x2e8f1f08cb5a24fd46fbc4774d771f4cef3b167dcbbeab046fa6123e2d5027fe,0x1256fab3fa70b0879a30d2e6bb7d85aca4b94f20d5fb403193e6588a5661d9b9);
(true,0x28a603af832222688f675d9c267bfd20f362ffb681e8ad2dc3bcb294b5d0dd4b,0x172d385fd9da12369ba3fcd1f515a6496ff245db11c4303889cb70cf48b1f586,0x2723e6e5d807b1cc6e114004d50193a601aa802b453f0c227ab77fb365890ea2,0x50831119506f1337b87c37de3a5e9faca95bcd80119b601ca06c7038d1d9050,0x2224ea48386f514f5ca34125af6948cf0d669787cfd0419782d1375530cc1beb,(-0x5c16a44f45a5fd3eb2d969c698019dc6bd0f2cb13d77ac82c6b2b00b2c71db8));
(false,0x2078d61cba6b59b995662dae3dd515cf5485ae651538441d0d5066c14d9c5b72,0x278a18d4b44cf37b3699f8f679b05dbccf3499336e05f7021b2915d28c1881e2,0x25900351733eaf8b34158eeba8b514966583df5ea4bdbd0e95455b77560f7d6e,(-0xf8d5380ce9a079c00e9097d30c2a9fbca39ce8ad0cd324c9201808b9c47b4c4),0x15ca1a5a75c7f127027c4a66067d701db2aa13843ffe43742abc469e02cfc75b,(-0xafad4f95616f93eec73b330c36c712120e8aecd1b2e232d6a0b1f15e737c108));
(true,0x1dbab72d56f765e9df3bd6d2098c60c7f7140a683dcdaaac34e142648c77b3e7,0x12092b2f420525467d2ec30ea5ff8b53caad114dbb32b08884c62702e311c0e1,0xccf76f16d81d7bd5235eef126b2f9af7e72408564b7bd06bc92176176d990ee,(-0x32c4366d275cd94396e7d516354f8739f85c8ae14cda3d6fe736c6d1ff307208),0x12439e41d836fefcf0b5dca43f9671f8da72fccd8135c03cdd6a65fa2bec15cc,0xd35ef48413c2e158b29fde844d8fd5382a430f64be13aced11a7d396499cc8b);
(true,0x2e07e88a4ad753b3442e6ea5c42899c9928a2de8dec7ec96c8e0958edc7c5e94,0x2c9529a6da2c6061ebf362ffad0eaddcec169a559bb5b3941fa813369a99f872,0x129a464a62f870025e5d554012398669acc0518f514426ad673517be2cb9ee35,0x4346cc385b56319339867752f8243e80c1c6d6abbc6ebe7ca77e20ed8f189ed,0x2bc8ff5ddbb6103c1b78e2f1d2e32ecbf4e2ef044022306542546d7381938b5c,(-0x19406eb7b5946c4fb85228bce78820ea6c6731b9f1a72e23dbf33396b8f6dcf7));
(true,0x1de7c2a0a6e9037eb2f14be09391e590dda96701d502c70861de5c333a6acdeb,0x70bff0377462a5742e549c85fb144f6ceb3b4acc662c1eafe91007923164a49,0x2eae976e1b998b8924a18c703036964ddb9d5285f2592d1399364431bc3784fd,(-0x643a5302f0a182b6297843abcce7702a800fc7b26d0f551d3c0a183ce76300fe),0x127b20cdd68530758b4f69cdbc6ceffb82891dd40ac583b4a3b4c9520ff3fa8c,0x17324cb4331b898acbb8080d24756ef2624bafbd2f6ec2e8417a5a9ab6604171);
(false,0x1b15d2a1c53141787e90702b37c5d5fa048efaa43bb00e8e87f262a67e4b8330,0x2d17c25504a34f7917c37b4c8b48e717401cecd0fb21dc8830b6bdfbc07f139c,0x262204462625ac225ca78c4fa88b20745778164aeec3d314a81af68aa84820ab,(-0x3f1b59bd91dfa7fd5a3aa797cf4197d28a54074913bb82f6efd291ce55067af),0xf28e8e0a6483e805136cd97eac1948abf715065e1a4641656028ede1dc4cb1a,(-0x154b6a0c8ff471019055239b6864c79e683ea960411c78d06ede49e5dc7bde38));
(true,0x588d5ab521215c875b55ba930328839f5a9e5ef9264c0d998970a36c29c73c7,0x1d5715b0772e084ef94b4e89284065d0a9b542b5437f5b5dba9a1184b99e971e,0xdb1492865936fc0034ebeb3d1ad81ddc71c86e88cacda431a5e9832a1e5d5c5,(-0x75556c3183ad45422079ee77ed2aa5a418f720b6e61bbaabce9dabbf58f52956),0xa20aa3349a1365637b925b3ef569c94ae558e1c7c84c62f3208c586047a65b,0x1cd3636c90254bc2ec2024e892fa9f66f31055aa894b1bf5dfd85075f076982);
(true,0x3a0a220ad25269b71a997653a85bd34a8f82564e662a937f6ffaad9beb1a1dd,0x298a8d83624d14d92d0040d34fbf6b7acd640fac66f341a7e86988e3f1caa394,0x2031985fafa036779a69da5b1dc7c06ede08d2a50a6665f654ebfd4aeb34b06e,(-0x33507ed467a4255532106efe160eee5905f45f100dd049ab966bb4bcb696566a),0x459c5ce23b669366b14e032f14bc75828fca7e553e6e7720c231bd70e9e6f9,(-0xea22fb118cedff15fd329c6fbfe1c837a8bd974c907a7e19c9a9cc008d7e11));
(true,0x19af1e2a128ca2b56f534d26866a97859898c21eef168f7d5573331978af1edc,0xe077d7112747a2a25f81de2e7a3955fa763879d96fe6cf9bf8228b87658d756,0x1b6c7b8b0a4819d75fef1230efef92c4da8b7a3591ba1a5edd93e0afc06bec0c,(-0x48ceb93e12c6c3d084521d6adc53d8891d94274817905303a042e77aaff463a0),0xda1c1b22afdb58dd054ca72a87df214191264abf85c59e70ef995b23a922e92,0xe9a1e8bcc485879cb1fc964d613a3241f962ef0ca6354f514089c254e7c2cce);
(true,0x27958726847c3a67f3b81314594f45abafb35b698e78104acf3f0362025d4772,0xcc09f1d2ef18f5ca6578d7b4191a46851d195ec20b54353df586743877ed7cc,0x13235c10af99f5a0d85d5b292cccbcdb8d413e622aa7c4deb1fdc49bcf32f836,0x20a9c3ed75c2b57ff2ddfed1f53b58264da8e004778051d429ab325515003004,0x206123773cf6060beefc8d20126a648a8804ee8448edcc72264674431093e84c,0x10b6026ad71204c446c17f56faa947410fdc0ffdafc9242b7b140f54c762d32);
(false,0x188530192366fe98b42bec9f0900f3cc9bc0c5672a98d3a4a7d212393698a514,0x3f01d9edadcae1b9d19c594f592dd32a07e43a7f81f0d4ee87c916c36433571,0x849530ebf05d3c53abad9f99042bbed653a374d0fc6dee247309836a5d4ae51,(-0x67631434745df27da1b3552b975918118acd5ad29620cea7084c54a1c92e1d2),0xc6caaf6b567c0046e1240644633e8ad81c32bf1960165c66c9dcd3e4470bc52,0x47760a511ea2dcb481f614a4b9e8d00a1cce703264fc7b9f7f13b1b3b4daf95);
(true,0xf6cfe250d6e8d92e72a14ae990116377ceb5591f7cabd5c06c9030020a14181,0x2c841eb5432dcdbc36abc6ea074e3a6e37c497b8cb4fa49fffa355648b3a9863,0xf3eafd5f15578fbe2ca95bf6218e310b60c459af69f573813256893dfa84ca9,0x4524f2a5c929bfce1865bd14cadff878324046e15ffbbe6337c511a81d4dbff,0x4eacfc48b931405b80f3b6ba79ee67ce421408c6ce2cbb11195bb027d43bfbc,(-0xcef5c6390d162ea249474c5b81b6b40a6c14a50c05396bbc5737092607748ec));
(true,0xf70b0b1a1bc5f8c51786fdc524a8c1add743ae9b895a80834c11c87b6562e29,0x12bc2b0f00ca7a20ec3b7f07be6fa1820a225fa2ba055090ba548116614bf64,0x1bbe84fb3165a2b8908946b40e193d8cf0524f601f55e3c054d4b07f210c77b9,(-0x711fc37a1aa3e90a2fdf2031d1d07c1cd1922fa071b7e5e14a444c3e5fb3d8b9),0x4ed2b824beba3f865a29a8a516b902d3de3cfab566f05737a8a71a34b54d267,0xdd4793ad9903b3c9ceea8126a4b9fec4b4a85e46db9ce620a4887a33f02ce75);
(true,0xc8b7462e0434600d6ee8746c3d1bd87f92652fcc6501757598c6a022e30c628,0x2102d816a25421e3815809f64769f71bfd4a86683a2fa6085f53fa89d9cb62dc,0x36f33bb4602f9c541b60a139f9d96a4a047e6a99fdf4461d0236083134eb755,0xe4ca6b5a98d4780791171d4a5c2d2d77acc5bc0227890b0cc638c0c8a5478a0,0x34083a1c247d8f0e34bdea4215050c65f333400f859511f02ee188e626d049c,(-0x8410719e00e397a52f990a450812590c066c1b1fd56db02774bff66a1d389ce));
(false,0x18aaa3447e51ab7cb61e26a9670a8937a81bc665d24506f7daa449323fcb762a,0x2e4bd63dcf270d2b853fe12516dbebfc7ec059a3f53f4c461a69c3db6288624,0x50b0b89addb69b8511ed169caf5959a36badab7bb1462f8c7be93afb556dfd8,(-0x10d39cb5712f7118114ed782370542bd7112669545114384705ea725828899c5),0xc92bba25ed4cdf32b507bf857a9202343a3aa870bc607bb5293929fe932d5e3,0xf5a09bdcca1efbcfd64b97ca8cc944b78895b0783a7f7c0dbd9f1529fb76f03);
(true,0xd89c29c5204e4af5774047c3b05047d98e3a1475cea5335f3f450fc496c87ee,0xcf68a91430f8b0cb2f9a12809c45770fb2fd06c92491cbfbfebc0ac5105b8c2,0x2bee62afe535516fd519aeab1e848007a489e32e74a8e399d4f179b696d609b8,0x24d7e2f919761d4c827c698c877468381b42ad20cb9fc00462378ebb740e670,0x3c9954c50fc448b2915e3e2c8d74acc7232e0cd413623e60d9b052c97a61c3a,(-0x2d12ad56ff68adda4c1eadb5ce829992652048c559f77d1d02e81c4942b4a74));
(false,0x16459e274c567e249cc1cdb11f45296744b46c1f4d3eb879923c840ef9e831b4,0x18dbf0d79d3439c15a0ff2701d5370871e8636454964e3fe420ba425fc6ca759,0x20745b56c062d2409b7aa917b62eb8f895f97f0009e7ea52b6842aeb053d5a9a,(-0x5f754eec70f56fc2ac83e101ad51bfee2ce30e0ce45490f622f0435a3b3f628),0xa401f9a2dc6c9dc3c4637903dce9f94e5d2b3755fd948a56d77af7f3a740674,(-0x5799ed7c8de40a275b84893ce8520459b1ff2b036e8bd0660493997cbf60d7e));
(true,0x2503f53759597d4f7733ac6b71d08c86fc893de97817bce29b6fc8baddd26ece,0xd2b5bfbe702d72e61eeecfe911d0daf745a6ad431bc61af131d9388601d6754,0x2893c983a2233fe5d7fef251a43ed57b8a59168ea7b93bc239445d3108f1bc30,0xb56bdd0e12645bdef694e89dbc16b6138181e37a2ab14dfd944e2db77ca7105,0x1c5044ddde73fefe94018d73d61bee1c6fc86f66bb420a32178067712cf6f7be,0x8f10f585a96b67d7fd906a650b2577a00032e20204a50ed2acc3d4e5c32933c);
(false,0x256a33e4d67b01fbf6bfed536217b6db69222869913e3446969881abc53b701b,0x2c4812dcf3274124beec292be5228c4a2a6e28b87a861cd18405f6761c4270c4,0x1e363683e01a9b129857f07fd10553ac546106d73566eb3b0629b880c978b869,(-0xa2e9dcd48f7e0158841fda84f60d84747b5b5e756c338e500943b4df8bca0bd),0x1ced8784a90540d71a5d872dcb374892d34a411d066b1303d2439e15ef29cac0,(-0x180e097569e33999087f1aec00b33f5e63c61d3b183d183964c32333cb437369));
(true,0x27fbc26f86fb0642f8d6ed442217cf9911ef8c20191c4c1c55a78e970bc57132,0xb70ff2764e9e61598cc3f00031c2b0a14ba37a42f12f546d1214c39a5d81617,0x1ad113ad67d5902622001e0d09c3599cb1e4ac12386f9bd1bbea916d0ecd393a,(-0x47a2f4d9025c8b222fa00628f3cf6263c0cf15729a90cb5f1a3c932046a5872c),0x21093b35b1aea3140d48f1e942d0bb59fbab52ba4ddf6b08953ce4d626a43625,0x1b224b415dc6b84401f9c00119295b9fd1d91f1f5ccbefb748a3be74e0a72127);
(true,0x185e1bb95ae377570fe715f41519a14f7bc6deb19cac63893cf1127612a2de81,0xc2f6f684f2ade9f6c63ce87c48e7867f08e717cd0f64dc41fa86dbee54d65da,0x2e0dccdd14a40df8c3266b489da6e37fd5dfb2e9eed344f96a0c8e14082eb7a3,0x12e4439847e76c9f9b5d4ff35b22750b189225b037dd7cbbb14e370eb3546241,0xc453009768bfe1540a43d5f67127c3a26fe48de36cf7d7a02fd0d5ddfaa6af9,(-0x5fe51aeb9076f84f62a3857ce4e16084819d404e131ce5c3cfb3a9fbaa3c20));
(true,0x2e50a77f545af54e795e76e2a8561c63d4e58baeef8fcece01bd914e2d50ead2,0x280181bf3144f6a331e2ea4e580ed1bfb3abde18573e794f0a541072b79b2ffb,0x13a680e6105c96ad12a812bdf9d2b7c5e291d845aa015812caab732d83d98762,0x4ef3334b481683625804620b5d389ee565630ecfee6647410e49f3ed933e0a80,0x2c53d17deb7a0aaccc6243fe9a5c45537c838628f9abb57665a0b68e3c6e9895,(-0x1aa06c604dfe6fb02587c4713b21493ff4d14fc12a491ed04fc3b61991ea3817));
(false,0x27e8a1af952a036df9af739f4132131ff5be846dcd91c40881ab293075d59f82,0x14545a367038bcbfdd78e9ddaf0c9294ee469924d41485b055855f85dfaa455,0xaae2b2ee35aa60668a1fec8e6d4ac098307d3f5d34c185cfcb8aa58af1475d3,(-0x20fe2ab0ecbc938986aa22ce82bcfe024c1324452766168dd9225deaab0242be),0x20e9a6f42311aa1295f0ede83768633790d4d8fb84edda88496fa883c020e9b3,0x1ff1ea40934ccc703d2d45df31ce5ac8bd77a2b99c7a9658b6465df286730717);
(true,0x1f9b984d0198d4263a38f9ec3a4aaf378eb9b0cc34611a3aafa3deb0970d8d22,0xfff3fb742ffeb6df2ad65ac79765ccc04c171ed4cd8889b0f2de3d7fb303414,0x146d9006e671b7cad1f238acd9df7a8e89d15fad55ef7743f902537a2e9678a2,0xdda196e02adfab24edaf8246989afa71450664260956fc0697f54ee9824ad61,0x14a523504ce5ea5f2a70a918ef8636982334a6d590a84ed7b5bd3771681cfbc6,(-0x99e69b442f03f0ceb865d1916cc0f5a9141e3f52886399b2e31b27f64a738d3));
(false,0x291a361bca82ecca6b974872c2d1188346181c5d216f55e3521b4fa8b968b1f4,0x186b219810903f06010b95a5e1fdda0084a3f74eafbb35e908d7d5be29cf6b6b,0x2f866b845a6c4c4e692b93e888065b5d409356aa2c5b3d938a92dea7504bca9c,(-0xd965de99dbc86e34942ea9da0c2c3ffc9cc453f23e3d5c3bcee578c545373a6),0x22e9367f9a5365d310632ae65366b3c38e213f12314bee2303e1787e94f3b110,(-0x727225069e3f3a2c66f7936853b18e4cabc14e74af585c37065f5d0fe3e292a));
(true,0x2fdf97fbd02b9fa1334d2a3e1d17b3190d166f1b25ba31b306f6b53b1eb15946,0x27fa493944e866cce3b8ac7fab22260ace42a10b2c8520a69320e02b6da1ebaf,0xd98dbe3b9847fac866350859c4a0e9224bde5a8e973f5f357d474185e208f87,0x391137ed0b3f1c17f601b2f730796a9bc88c3eaf6d5a18423c9139d429b56925,0x2f5c4d7a70ed49f6eb872f1b2d8c281298d4e64a3c054a3ca3673b4328acfc9f,(-0xf647bfa2e0a7deac202d6923f7397f627d0778baa99b4409a502a62bf9710bb));
(false,0x18a18eb3f713d5082976d094523ae0e21cfa09e203a9895a09879b4085b88e66,0x1f642aae4379147a5d7dd65fd92d92da572535f0c3936bef99dbeb75f9e6be7d,0x28dc70fa9371968704378713a8b0228ecd7e8504093c904bc8ba5b4af652d61e,(-0x14592d41fd5b53dae79e95c1280b35910433eff3757695e96c27b520fe6d02f9),0xc897b8ec30e31129ffb1e277c247cddf0abcb9b80423e462a54defd064ca677,0x45ed3a023714693e05d0d9226d62bde8860a207563ef6d5290d801681225847);
(true,0xba31bdc93d9b457fe3b75cbdc0338aa57be506c71cc94e3cc27644a2b8784b5,0x88b94eecfea3f9ec24e4a0da382a4e3fb4e9ec9f14844b0275762cb5fdc2450,0x9f6888932dc9353838fd0f660e6d84b133f5e73d08b43bb3c1cee6c91a167db,(-0x296fef2c2e61bab91d8ea91f4f85b1db06e7c498ddb548d241b56bd94b77a4af),0x2cc689aeeaae3b4bf58cf183c2f5674b8feaec24345bd8b1ad5d57da60786af,0x57e73f99ff55640cabf08f06fba47159b070f22702931b226c4c57135c4f7d8);
(true,0xc536f7b5d96bff55a9a81d878583f042d5497c2d75cc28f7eb2635497e8fe9,0x169f7191dee400262d3200377177024dad041d49d6d1226d91463fa61016fe04,0x2425a2cc6c2c6a7c22d4ceda837c3186a139c3bf020d2d3db93389f0a261fb10,(-0x435ac25bd3acf328a7ec18b8b7d759fb26f0c130d58a856d68be784808a145a),0x323b937783e45e22e7789dcc081e6e2ce2ae6cd402a8d979f2b94dc72db6d,(-0x395f14acc11d3d44d4b504a402b52a366ea4b1020266078b152ef7e3c713bf));
(true,0x2b94881c52412c14e5c96308d3496bf2a3c2d271d2303b9a3af5ae15edbe7d25,0x15eafedb7159f3afb6dc8d5d71e10083c11708e814cd739206d39787d65c1212,0x21efbb71fa5801e556c51e62698f2324f853f728234992c57f92d41273e92513,0x2160b63156ac85006239a67b38808dbab51ce815e5d4000715561b727d0c6270,0x273f3b9abd1c9519d0e9a28d9d60acc02b42270f48feb7a58c110cda7b8f193f,0xa2818d50e8cf27ff7fce79e827a974250a01a24114a87963d993811e8a23d7);
(false,0x20ba8193a3649a0ef301dd9094fffe982d61d8c21a802052f43cde46831a1ff3,0x22258eb854a1e24b05d4e16ea9dbda8ba7644071835d1551dc55619f68bc849c,0x24741885129e77b39b86775ea25ca3e637a7084777d6c007f618b42d2d52820e,(-0xed2d9843b3195e18c09f326c85cadcfae497d4118b0a0db237dc362f6a5373c),0x162295390c86e53a216e520c032b3fb7b278743e29b108283cdb2f31944029fa,(-0x8454602d6b936dc3c51d615bf9e7ac09db17d45be034a0b4165a9f370ab161f));
(true,0x2468f359853a2a9e90651f059a8ae302daf6b7fa510e4dc2cb90b3b5c104682e,0x2c47ebde5dda72a2a65dd1bf4a496fd322e22094e4b41335eae0765b17d16713,0x27906fbbde58908148b7a04d3d32bf3e77a5e5a319727f0621cea36bfec58b3e,(-0x116dfcf1149e2c81634e2af03073e93a8ab81d7e8a8e2e79c5c170675db1a028),0x1b65132692c4e72e5e12c81cddcd5da444d425fa1416ff5f920f17266e8af7f9,(-0x79fff3d3952dc3f9a0242c42fd0956fad17062bed09d608a6e3cd783eb516ae));
(true,0x1a8d00cfc5d9553269e629cc0448ab057fa407ed2d29d7eecac38fbf6da175aa,0xa4dd59c65cdab81929727ada75a5bce06d148ec74fa0ee248dbf445c8fde50f,0x23e623db72fd46c2ed21d35c45ee8d44b60b6f7eab059796ff313780ae65aad1,(-0x4e249da08b7285abd122e1e06d8e1546167b435deef1f0343dd93255f1f347e3),0xe914350098b86752ac4aea0c53d4cadd534dc3c015bf25a130910a6f14821af,0x12a4512231e6119d0e0c3bb8535123f8c0f5884dcc0e774ab349dc725e38f499);
(false,0x1ba57cc79865e51c0f8de849220720191160e59565cc6cabd4615e76a7c8170d,0x2c3afb9581f8e971c63d96e59114cb23ddb48133de570cfda2c2ac146f09d697,0x2f019bd2dcf2bbc23c020d336da008f4b18d32029de6ce150dec2f84a8fd2f5e,(-0x5e3014888d377af82fedc69adb6ca5fc06907d19c13c146b5d2f00efd426011),0xfcb655d82038cbac383fdff1160a192caf015e1e41ddc46baca08a0e45b9b02,(-0x1361dbde3adf1028acba3a9795d6360325b2cefa56afa4e441e36318b2f15617));
(true,0x28e0ab9a79983113f7df32a734f41e2bb2757c4a779c0fbc356451717bad3f9c,0x171070477a63125f0afa4d78b8c8e5b7c0e2bd40da66c5f8302131ad14d279c5,0x21bafb097ed8a4b79c52818750a509f1ee849ac930cacd1e591e22cc537ff014,(-0x29ddb6aa37e444e34a691b2e34f343732e14e04d8c66f32953d11df07a8e68a3),0x2287bbb9d94fe85734c21a21cc3ccc0bf05748e82f68a04a6a6f747ecdc0001d,0x11e12952b172146b95cab35f8a68d2ac1cd856fb0130f8ba10b0de029d011e86);
(false,0x26d6782aa488ba385a0768bbaa55fb7c87e4ef4f926dfb1cbb81c71b901805ee,0xfee88128f73b5800bd7a256ca5f905d2bde98b5faf115f41212220abc089755,0x89a7c9536a9d196252fafb88ad710f6cb2caf6c0acb2f8cc7e604ef7868f965,(-0x1282b800080144547a3d67fa0c843af6358e0aea28167804ed8767ad512d3f50),0x1f2b8444a363fe9ae90bcbce991d238b64c78176b0cd717fbc7546379be81829,0x5b96a8c9b41d6e01be6ad297cb95d6bc57401522a792f4bcb45a2295bb3caa7);
(true,0x18d2f533605909b8bd1144b20ee09c40bea13fcd18ca74b3fe31deba87a1840b,0x141625bbc9a40ae1911bdf838d4486ec64c1a6bba0b36678fdb30fe7e8f814c5,0x1a50b440180e78d47ec49fc4a22352b1a2412117ae82972db036b64550a47e00,(-0x6e8971f5d17beca0ca8b8c04af22e97e4969c071592e11dd1719abcf3108ffd),0xcbbf7effac53d0ff36d6a68b5247c7f807737496d4070683b0724b232e8150a,(-0x2219d31d238ee6c9e4907029f5d36d434ceae7c2b172312a60bb61477759b35));
(false,0x102cacbfadf504ec31177c1db9e262babc5e20664e196a5419eb55c4363990d0,0x16ba488a63ee9d5372f533ecb713cb83b0eec53a17b0471c0319ac9c6728611b,0x7174cfcf4e215802772c24ee0869b5d2ce26d86d74c76f4046cb3c92de695f4,(-0x6b6b6e01f487a9c7483d54cc111e9f52f8cf22760c5f0a883753d85be7dc86c),0x567fb482cbea9353ec33411824e2b195331d56389d7b543fa34e24b2e6a331f,(-0xe1fdf903e0adb82d6964556a22f20648996d2270f867bc035b317093df79d4));
(true,0x6e178aac8a0021be2d3740cbc611410e057f10b422eb653f7ef3b6e0005319e,0x1b93b6ef82e394ef9eb1b83f2ea2230434bcb2baa73735f324a0276b92543fd8,0xacf3dd8be595c4167cadd8231569fc4128c39d86bbff66111aebe2ac3303bf4,(-0x1e019a9a9d63bba3a201556ffbbee193a11b116460a6f71061645e9f8c3fe95b),0xfa75e2dda113f9ebcf186f606239a555b4c05851eab87d930b76bdf924db76,(-0xb084541b7aa3b38633b4730409f8500b7e9c4ec30c73c506e0d486357d778e));
(true,0xb182cad6996a99bde3972097ef7a68b3cac2a4755d562481cac01407d8a8184,0x28cd7e5b0265f0ee83ce594e7b7760a73e8d24dcb146d2c8012dcc0cb13067f1,0x2cb088e515127f117d6041fabe8f5ab140cbcf9925da4f64d998edc51adc64c6,(-0x2a307e1c3965d32734a8eafbc56a913a7ff9f2e2c87f2646ff082eea2fca5720),0x28b254676f2a118837fba479e33426dbe93ea14b7a1a5270afac7a1e5fd646f,(-0x3083b75e9b956e60d6a21f39f01e04dfeb7b354522ddcc7564f76246a3fe69e));
(true,0x6f501aacf9278e2a65baa10763a991ed2bc0a577bdfb94669523544e76763f7,0xd0c7cb59f8164c0d1096382ff06d3e6b32e76e993d570e332ad66f8fdda87a4,0x11ba0d83861d58b6fba4d8e814536e6c6cc9e8beacbc50051a707111656622aa,(-0x5a5c984b4dee631a8272c8185b01e48cbc3af88f90b8deeec37af8c56d2bd88f),0x1000bf06150c69bcc6c8ebd336ab18130ef2189789cbad90df2dfffa98fa0cb,0x3fd73c29de8a1c9d0c9f01afd802f926bd8c4d6a75b3e779fcd40ee2751a9db);
(true,0x39fcb9632c5527fb995e52bbc29b5939e70d2b490f4cd75fb17640fea99e662,0x35f23579abc4c405becf28b7e61ca60b51d7f2c3522ba3e7d56cab23470c077,0x2291be881892e44f8f6cb0a35271590a210d344c73e9861d4424f358fc5901bd,(-0x7e6893558e3b738c363dc3985174308b6e15d15c0b30b69fde2cbbb79db2108),0x457c3691bbff7eb887256f0d461611088b94fdeb2f5f59cb98d48078526dc5,0xb98921b87f65a37f50b330bb317ccf35b3968f0223292465dbb71f1d9688d3);
(true,0x1f844e4423798879a2e9a2e7bd023d1c97dd375acbd3b5a2cb256d25de03c95f,0x1fb5c14f39d15bc2d7fb2b261ee32c6ee313453424537fce37f128fb0b7b926d,0x119a11f818b31a5c8316aa7e4d6cf5ac877ce652bee5b5d92fdb3284ef8c4221,0x2c52fad3352ce7a738d0b10489828b93f42660de44ee6680a3a787f422bfee53,0x1486c226630c83bc213c9bf5050dc3a1b212b88d37d3413f02163b4c06433de6,(-0x1274d0e4c943a2a89d75909066eab54e01019939509b4b3dc2fdb7a181a55428));
(false,0xc4865e58560d9aaf7e29eb8dca7353fc70fbbe1e6d54a783302dda84dc1626a,0x25f44135a5dcaa4f6bfc07d0b9b94a57d2be59ef1415e928f92d9b8f0101eb39,0x48b69301000ef143ac9718abca5344803e2e9225316c0ea641ed8683802e74,(-0x80c7285c330f0fde7ef0807e113acf4b646f0a27172fadcc73d6494b156ddc3),0x31e1c51e76fddf6620899ab804a6ddff3e840ad364b48af6af8d2ff112bd63d,(-0x195bb1de3e914c5ae1611b7994cbe752fd7a04be0fc184719359277a8774d0d));
(true,0x139bd4a8e17d60971727735e346f2cbc163572517182a0d45fe0a59a1119d04e,0x1f94b03111113138797714d324707cb8ccb580b0f8706d0e0ef4f41a923e6ec2,0x112e5231bcd52c5846d667c4d66cd756c12985784ae42d90f551e98809ec0cc7,(-0x5912b282c9b2a1a909da5739d467389836524c2436a030687abd7e85a97a4963),0x7f21249a801959bce7ee1c35f89acba2b67ce0c466962986d666ccd20789290,0x2951f58cc648614dc476a88d47dee8e3436569d922432566a50925f85e36107);
(true,0x480cd70090de5ed42175fc2ef72eb187f8142ad5c68f765896e150db1e85d0f,0x26318374560ed81e978b5b797ba74f95dd916aa3d1d86c108e20ff589a5538f3,0x10d39a25c67204886ad34d1d2e5bebb380378d864f8fea02bba734117d6e00f9,(-0x3aa1c7d3373d8525c85e87df2d7630b6fd671f4d4ec792efdb67e539f807cbba),0x6b465bde7d66e92107ec7363db0ece907b31d58d6d41d3c9b1534e6c31d06a,(-0x9d86eba4b9c3608036caa611efb08c9b13505f459442049c2d676a558bb39f));
(true,0x24f148a36251f7c43c364735d3912b33979319dad1e81aad8281e85adca5a400,0x203aa48d61276a70cc7138d38f6daef333492835432a5d532791ca519b192327,0x2708c4ceda857846372a3a596b7b35cb47b8f99286a95ee7b1178a2226a99e79,(-0x40bded27bcdf3d07c5890b738f9876f9cb3a513e84a70d5060f64e3b33e29bfb),0x1c33baa288fcd60aa66f59b9ad1f693944f9aaf3b94d8551b80a073d314c6af3,0x48d9e8cf8779f97eacef58b0d7426daad4f29f1837900a54bdaa46d165b108e);
(false,0x2981d05b7fea54e454d0aec7eaf0c0c939a64dc0ace0d2ce5104acf7bd8aacc1,0x16d334bfbeabace133b4b92bd03085ad73a76730eff3126b68ef1c8f04b18d85,0x29475e4ec1709f0ff1dbef642e0f6a45d24899616966e0bde712c0365e7f7cc4,(-0x1ba4d1816c84bd53c2a866c05098b72b089fe22fca732f90c276bae1bda29059),0x239a12844823f50fc6e7cc4f3f90531fd282c436ef070820c4ebf0be4edd38d4,0x810edda97c65301f827ffeb56c6a76b410b9127d10990932303e6600acb8be5);
(true,0x2c21f3ae3ea767170b1c1ddf5b8027f82a4ec958eeacd37f9f5f4b456a7cdfcf,0xa4d152c024198c3b8f9f514c629e2fdf247a208439a89c985e4fe88de22a7dd,0x80f89dc8bca332b8729f54bc9b88904202d7acb29e3dbf9875d856d9b7e92c8,0x2afe5a40dfd95433e7e94d52e7db020b7ee4b6d29ee1a546394b180b72f7e7ad,0x283f908e8fd6dd51a0cea6376293e7e5098b00cecb6f5c49a07ea60fb8ac867a,0xb6befddcedde287eec1287d3b0c7b30c0d916318628ca2d4745ff473afafb4c);
(false,0x9027aa88c94efbc0f175c32b884c366d3d0dfb1fcff771f8e6c47e6a1bc8b12,0x13942e2815ad434db76f52f78a69929ae878a537eabae6f151b78a80e7588c42,0x2c429a747796b26d353f3a1b27c5072322dd81013e81d42a1f006db2760c0f0b,(-0x1eafa2af24c4f09c0a4137c3f585633e297704401e7189955135436b7e4d5dc),0x1ad6cbf9893301c2bfa3a3158c1aae8b8767473fa63914262bd21d9ac815924,(-0x1ba33480b3dbda03e99da20d79912ca7a2ff3a2841cbcafdfa72801098387ed));
(true,0x25e2e606f5f8a3628f4ae06e53f99ce75166381435d5b6a846f70e6459a3349c,0x273eb4eb290b4272022b21d349f9303bff5fbdf1a2b2da6ce9a763cb8214c688,0x204788055be85d3d0878c2a15e36be9a0019e05f062718995c15d79184b0cb7d,0x2d8a0049aa0506c2afc550eac204cc405c1cf95ad95f44a1f63d5213d0280a5c,0x1da9573fdaf15c5dc0921e9f2fd47e912344f58200c4986d2de45b6370b1e004,(-0xf6591964b6b044fc73347b2c43a81d527a5b48ed22522ed55debd2ef1d89530));
(true,0x25e3ad6c6c171a963375cbaf3caddeae4ce035bec75b214e2634285d8030a6ab,0x18b27c5279deeef95071cae8782387087e40ac7bbe9e658b2bcfbaaef47e071f,0x2bee276925b4a87b52c075cf92c9f6ef682170a02439c8483718084bfac18c26,(-0x2ceeed055aeee35df51f4b0c660cb3ec4260034e777daebe6dbd540182ae03c2),0x1daa8f7ad16c52e3aa7d13f9585676c7b7c86d1330413c6f4875203a93faa20a,0xb63f475f0e1aa7bb13c6b4447fd637e259753e4b27fc4c352eb12ba380d9980);
(true,0x21c866c36615c926c69fb4d5f1c23900ab559ac2fb4380df725147c0c702abb5,0x210f27f1b1b6bcb9d1a229cf015968a1abce2f90f4d762c05ec5a41cfcf0baab,0x1cc0adebcb18b16a329609333572a26dd0ea446540924af0373889c5f5efe5ad,0x1785e426ed32104c762d2f187a2b341937565e0a78c18886ef565525ab5ed079,0x1795893c8b181e0d76deef8670a5aa808aa25263779f70a93b1dee10a2128510,(-0x5d66c6de1a94cbc2964b3f29a9b2a2c3dc5c4ff259b6ab6d445c3cab2d0e7cf));
(true,0x25472f3b1ef8c4f2e31c4ed7edc89977f21cf83be5ed9e977522fce541cb56f4,0x20df52fb6eea08d060cf1c14ceb6b89314186db143be0c023293c3d20e69066f,0x1a0e776554c2d96e6db4ba6d182fbc2b024cc83e72017b139e6475d3f10f0116,(-0x1774908f5ccd7be596d9d8ec8fb117ebea37ce2deee6dd9a758b7833a83abce3),0x1cb77a88e3a9b2efec921853d740c3db36f0814de08b9b3e5e30419794365ccb,0x24d8c2c25aa1392e552db6e372e2c46bbbc0d04bd07edd804f10a100790a6d);
(false,0x1523bf6fd7d47df163776fad96484bdf147fe87cfc468abee868eeea1bbf12c5,0xb3aab887fddd84ca85a3ffb453ce60166717a578a27d18626f675b2a9936fd6,0x8f1b93e73841fd4f8b73c78802f6a7cefc97536ea9ee1bc03747ba800a4da2f,(-0xe5c2d68fcd55dfe5db536b81666f4a7f55ff97006cb6c338aeb51933087d4bc),0x93c15dc136a98bd870eb711acdba5a3e39b0c003dec204e1247198b0959d553,0x97465b10893154a0cd1b9d3c98c07f8b1f4b59e654b48f576239122aa66ca78);
(true,0x3c7362326a5d6182ef871d265064ad35a1c9108d5154e16588955eccd287036,0x8c265552feb8e80ba6310e7b59d8b7c2dde45dda1c641774c92c0241cf01d70,0x3706731aa1d4ff3febd6ef0322d597e1896bb0b65ff2d7108166dfa7bb4eef5,(-0x66ba34c91cae9133ad095e3d733b39cde7ab6a275f0c321df2fb5200cb8a8d8),0x4b83bcfb7f7fc8d0fe96aceba6974375fb73b189f3cc2851e83964cdf84e48,0x315d519a98aceaf5865cc0dee0c6d328e99f4b6679958cc927428530163860);
(false,0x6c5a1c237fc818b31d75a5a542378b6481220db16d5572830b15e1d1249bfac,0x16c54f1faf32641cc8987b8b724b02c5bb6fec7b1e662e3a1f9757a4c8d2f463,0x22ef9b276a652c17d92b05b7c5bdde9d306ebecd48f8eb0ee81c3e2de84c4d68,(-0x139cd977ffce5cc0da9d9f5791fe352a96565a801085fe980f2df2b807acfcb),0xf29b2d54c250b33e0056b07c2d8122617bb5e11e6b499c8e32fd4de9d709bc,(-0x1f5f4c8f42cd1ef3aace297a9d2666b29d141fd9c50014c0593be639013f4a1));
(true,0x20c75887b2ebe926ee5b8c2fd6621cd301bc27d28a3feb352674382c8a5e8099,0x1e9965d24b04c3d823f0df3bc016d13e919385a6061e607afab68562a1949086,0x216c582a1a88a6420246aa47d37c9391387361aa8c380f1f51ed8e4eff34d86c,0xf2f2751d43e51e9664a5f6f89fc3bd7f62506b2a54f561ed19c1ae29dd1eb75,0x1633f6b80dbcf736a8b9b2c4691b1aae0be05270d41193c7c06a7d31c1bae225,(-0x54d7d6ae6e3dd632535ebae9c186b2de8fdff4112df9f42e76b409a6422f6bf));
(true,0x7f8f32a1dd41280f6a5ddcb43b250b6e2c06f8e177303bcd3b648a9e5866325,0x8c46788c5312c92831d196074beadb65cd1567b2fc2d22bdcf8ac55931f17b9,0x206bfad446356209aff8404669133b5ad41cba87343bd7eee4e110f66074475b,(-0x2f08678d8e11809e6bc7bfb4ff1c5d41113ff4020a2472f3c23b8416bbdafb34),0x1503e1adf727a46e289c5f022919a517bb8c1aa576491e5f53c08c48cd96a94,0x398c6a73e5ccb88009735607db65ad565e54a18e6a1efc0ebe6f3dc61569cda);
(false,0x6857e4d7a24262084fbc51150c86ae5a90fa7137a273297bb527bc3798b7a49,0x2f59ca1f9023d74691fd19caa89ce08dcc24c5eb56dd7fd0ea60c940b8252d47,0x1a040a09133e4aa5e422d37cc2e733e2aefb2c9fcbc997c7e647b2d9e7b6acaf,(-0x12e76d126bb0005c25e1bea2da78b9fb943f60b573051cf9f058f5b4fde5349),0xe0fcad251c2a42b951cab853ff9c4dc9e3aeba187e37d5fe791333bc6b63d0,(-0x5331cc9a08402701c0f4426953b876b85fa0193ec55e62541bec3e30f46c588));
(true,0x25a33be43dbd305d6e5279ef83dc28f53e023a9eeb4316e214bacb7e3e3f4a81,0x988427b7f00b7d8c1b06e4183e484a3c7859e4c01df6e8293c1674b06081c19,0xa0b353e6796f74df3e1151a43fc32e89c1e5018f36862219ae9f08498674a92,(-0x628715154c5b752dfb73ee7f629b21e5ded2571b1172fdc86fc02d78f786e8b5),0x1d45fb23f032bcd297905b91aae04b19ed051be50cfc06eb6152a2c966da5e5a,0x1d69fd0ea03f5fabb67376480a8d00498b190096fa077fde699292abd5d0fced);
(true,0xb2e09010c3a4b176d05b4dffb04ff19c074651a5e9980379ed7b716ad752504,0x242c20aad2c5f27f9ffe33ba06f91de36b2638d2e8f101b71eba03e420673258,0x8e0b3e3676c7be76c6f3e772efa04facf3739d2ae5c403ef58e64ad965f881e,(-0xfe0411f49edde9ba379b22d0d11230523a9d227cdf86a98818cadce5b3e6c3),0x2953534eb70463c7577b49c40bdaaa91868075e31ad736c2a1ca838768abd86,(-0x627931d8cec1776ac50041ee1c6890f38a95552ca2afe42e92d0748d44546ac));
(true,0x177dfe19815b9610c7654f38893c42edfd44181e19c4922c0b734157a0009b84,0x15fdf2755af078192f00cbbcebedfd9227da3bd051ce3d4a762a03fbac1c51cc,0x28e0e694bdaaa88fdbf972fafbfdcb8cd1f27d6853ac73ba376d2f60ad1af571,(-0x487ef10c47e72c33622b0793897c912a88c94f91d596f7eea338ff6764cac7d0),0xb678937b8cf94acc753651b853f4ef5a54b9f221010bff40ad8fb22b18e6594,0x6e24c19c6ff6fd4f6ae4984acb817e4f6aa3cf5161f751a8f8e9cf899160ea1);
(true,0x2132ab000ee733e0956aa5a0de76e2f7b7a2a282ac4225ba5e6e51bf29154b85,0x2eeef73a64fd8bdc3c6b6ff162bec42609d7a63b19f68fb8bc05412342960ba6,0x96db32f219bcc891577b85665696f9b8ea99204e14d18ad2cc4fdd38d610687,0x1a1aa257f34ecebafb67ee2ea33c30a7b6f4ec9fbb6419675e594ba164150dba,0x16c648f5fcfd9dbe4f671a4afb51cb9be968a22ba0d3f81286f03bf3294a83db,(-0x111c45a9bbfe0b908d99d1bafac1767c5df86769241e5bf1203b293cda0e683a));
(true,0x2cc9a07cb80bac914587c4b81c3649ed41d876c9b72cb51d8ee6d05a7c6d3f2a,0x19f42f10d796d4ac9d77e36ecd4d0d3980fb18912010e1daf042669b2f99e427,0x176556c5f78aa6a0b9aafc6fb95dc87b1bdfba2ad93d341f99a273c3da51541d,(-0x771ac5e02fbf09900f4a2acf31c79d7eaca824e4e04dc543da73bc31412c78a0),0x2973ab1dd51f92632dec6d088cef75d16b0d9ac9c1465aa12c1ccd98e493b771,0x136ac4472c8e7233b8af27679dde332de34ff9f5a56d34bd16dd9bb738776132);
(true,0xbb01df203bd4e74487e5756a4a6873bb7c6dd380b8d76f07bf682d0afc2e796,0x2399ee60cdc638fc6f32cb290f1d84f0ebd70d138dd70b297fdbd8ccc33d65c5,0x22485b0bbae8c9f6471bf68010c23260ab02eb269c36fa2a050063e683b65e61,(-0x1e752fa89f05a2d912efb731870a2ad944de61cf6f268159fd00fd742ccb91d7),0x2d2adb8e60f3d69e04f26245a2a765ec67ed759add23ebeb0343ec8d266ddd1,(-0x254830f4d177e0b25b0cb235e83476b781693b299248ab6203b13dbc5873712));
(true,0x25524b55f26d4b6e0681d27e8dd3d089c5e220135f402bc419fe7d62bf678ce4,0x1c63d4039d9e7a9d5424fec53034334f874dce079679ebf78b46e86cbb7ca076,0x2684bd254e34c6910993b16b1ad84ab0ae001c60f6d5011cc878e484d9856a74,(-0x19b1c59eea37253a7b5e134c1d2e5aab3afcacde21f4108e1c46ce74bee4e803),0x1cc89aee0d1f1557bc5df5bf0b07adffa6762c658770c58ebd7b8159a30abf10,0x58fc76fdfae8a5823bec60f91b3a7fd86bdabb93bbbebc970bdbba8ba242587);
(true,0x2a356134e36746335adfe91d9da6e183e05c2a9f9f9dc6eb27ae6cefed9aa4b6,0x2de0a0b4d850bd979a9c4860562f67b2d61d17259c9891d1901fcc35fbcc1852,0x8da3c32b354e6c2344bc5cdb23380822608a610fb7099bd5108e3316ee138b1,0x113a21fa8fb84645e912aedc0364150c03baf8212deb053536dc2022a4fcd9c4,0x24d0b67c89dd7e617581918254565cc8b21e707057a48ccb0d78a2b27e2c5826,(-0xf40c5c815c78baee672fbb0d121c93a31c5518b9e4919e47ac7943a8006c98d));
(false,0x112c5b529296759b19dba85ea3e88a3917ffe1bad6cac3f5cc917bf50ed41556,0x2e423780df728a128f92e338ca3573829006ab6ef3090f3caeb18b2c5904921d,0xf4e708935e4f9f0864b19f2208251a49d9c5af4e2ff75704acb50467458981b,(-0x1047eda6854206b9f0c7adf858782b97f677d6430a2593ae7e14309b0900beb1),0x6182d58e95c50b92f9404beb36d070fc80449cbaed9e795f90b0f19ab668e74,(-0x22a1e24c940e6423b87a73eedbea4e61d869c6d20c76ae16b4faddac4c61fe));
(true,0xdd2c77e3c6c47059a69e7b00e760058edc1352d35b82755901f9cfa7e0e2441,0x950f686b391c220470976696eabcaf0a3087a8b2ffd9935940706b2e35807a5,0x2860ff9e9bd6b523c92620132d06114838cbc302ec5dc7fc5743bb38e8738987,(-0x7be9f4b9d57f6230589c68a643100cafcc70b3513764837f0572d8e6442e7025),0x3f2de8ac5a9a666a8eb91caa3e514576fe2c633bbfc6ffed86ad18282dd2ca2,0xa8d828f8180d4e04c74844a3d97d2eb90bb78383a7d939c5d93dd5fca0be6d6);
(true,0xc0d4d88e1765dceca0dc639145fca56d087251456bd90ad3aed3de7fda6c93d,0xbbd376919b0daf3a6813587b82ba9c062031a09873c825120aa52636fd593ed,0x1423853768f35a36a6fc480df4c8f0caa10ddd17386a12322a3f0d642113310e,0xebb69408c65132f02d28f782eab1f5a7951561bbc23a1facbea0ab2771a374b,0x30064ba9607627a34ebd6a2ffbf44089f8b9cc9cff6611a957b1aa614c73552,(-0x9a7950346e216e06bfec5fefcbd18ea6edb841ffb43cad8f493ab90545afbd));
(false,0x240e654fefed4f04c735d1127662a892bad7042fd4d7e1fa1321399af0967f7,0x1a0ae9d09c7971c2df2a93c7f2f1f837294b57f66a3ee0808b272db4b35b4ecc,0x497efcc689bcea2a35f6df51b27e78c759ef936d4474e2b34402ad5c5c338e2,(-0x8bf27a7d62683432ea732a110960a3a3615bf31fee80db74bfd08ade0da2d2),0x1add7850febd8441ccf32f7f18ec784c7703c9a3be89d86d384a2f7865cd97,(-0xaa84aa12ef212b5d0a925a4c21797ccf453e9e391bc653a11e18136de47019));
(true,0x2b0a1e3102f2ad680bb53e67636ca88751bc2bc0abd9d44895cec1856d467a19,0x9480d5cc57ad5efd9d375439239e22740a459d1454bce5daae597829b273bc1,0x65fae60351b19ad773eb1eb3d61bde10bae091b3024fbb71526130786b9a60a,(-0x21dfe2d360c02de1d9e5870b6666750c891ef83fb6eceebd7c2500e9adea538c),0x26477a165a62f11ff87a3c5906234c81bb9e73a5a24fb0c5e46c0a5fc809fd18,0xee84704da0589a6fe7d42c46f953c3c327a5e008c7b83433d96a4c635ae3b27);
(true,0x2f35ef39a274d124a25ae648b22ab769021732342eb9b11235078c1ef01e9a24,0x2fa188e72b57503204ad42b3eb8b9f05994682f25910d32a270232052bc242bf,0x281fd8d0166b1dae75a1de1452f90bf78af316540a584fc2f98da1c40bf29e17,0x7188b69a233fdd2db9d2cb4ec46d38f93d41442d2ac3f44b9569efad011244d,0x2e0ef1587ee40d79d19c69901098fa4c4df32228cf303e9454d1d3128b2e9acf,(-0x2569dbe134fa1023c7fbd44605584cafeaecfb41f0e44fed6a4296ebac720bd9));
(true,0x6e532945c59f8861083e11e0363abc1c281b90844fdedf9223297f351f019b7,0x13c279bb4ad621719849864c536f2fed521ad38bc5f09f927611482641824bc7,0x107904315b60b6995d594a4a1f9f15bb4364d5c11bbb247c9ec8d4324436e1c1,(-0x813639b2797dd1ecadf6a8d51cd0f71c140f25f668d5478e20646e5ccdca9ca1),0xfb85717f63c6e7e72be9debe0f9f15857cda3779bdd119b10c46b82eae6f8c,0x3f8aae56865954f8924805f01f5120c318cb1e6b9e5c011291ec33e632e4370);
(false,0x18c756e4b2773adb3d622ee933708fb2e706940acde371c50bd6f0909147801d,0x7044ab62a5019db88bf2d3bb7dfe87cda7ded0c2fd50edce53ddf5510cf94f,0x5fedc1d4d56af0d13f606c017edd8e299269ffc315f3fb651b6f98c7d3bbe8a,(-0xa1e278aa50bd897726c0ac6dd676073b9cb8a2ad06b64c304b2c0198997dad9),0xcb00f3454a6dc77a13f4af65af0323a40edfb778e555a54a907da98b7a3be32,0x9e4ab18e6b0617b2217c8c17fed321841c0760dfedc6e9f9817cbb7cc5bb74d);
(true,0x2cf131b5f3d006c616b598cea17408e41e95b592914125b073de4a59e1fce039,0x766d9aac1e02e24fd8f5bd3500da052e51c49ded919125643e711a547bad3a,0x2c5fdfba4392050503ce6c2f4e76778a0f23ab4a4433a974eecb3cd14fa5c4c,0xb1fd6e7e37e41ea88120aa7c155eb6eea0e91fa733ff32628b67de425240651,0x29bd0911a7f278c5e8e241f193f58c72c0bb45562b5b6f4d60b2f2e500062cd9,(-0x5b8857b9ce304d4beadd0a95be48854c66c97cd55555a3739bb54699dca29));
(false,0x1a6dd9db0b014d3ce80fa928cda680e12b9166febfb9baa346372da56aaa2235,0x2be0a0e4ab638aedbeb339836c2e0e575cc46e02a56aec81066b858cc3032ad6,0xc67e24686bf70c5d0d5c9bd0a0252bdc435098a66ffdb135e4076b9acad6187,(-0x40ade780b61973ea54b1ca07e999a957a29c6dfb76372e2744bf9ac9bb39ad),0xe6f283e3cbde98ef793e50944e1f25a9ca65637e50597afca22875ebf7746e8,(-0x17b6001223469e4cecbed1830e7dba26ea2b71dee369a8ea1986a8f393fb771f));
(true,0xc00186e845ff79952f48e90d58de069888864c3f6738e944c83bcb15aa34f0c,0x1d372dcd86b82aa3777d1190df8c0ed8a84ce7bad7bd5cc0f3051822562132a9,0x3636011707cc016dac853bc2b335e8ce8c879dbd91ee4fe3724fcbb450bcfb,(-0x7133266b67941327292ee526f954f72d647d8be55364fd4d24e8d65e14304a04),0x2f9d43571cd69cdc55278a80a6c39c112ee8f28bece71bf02337c060588e03b,0x3a2cb23d1b7b3d4daa14b80c6f5a288777c8d6ce8414981f8ac4db0ebd6669a);
(true,0x4c070bb92e62080b5f5039d71041c539bb7eaf2ce80d5c96fd36d12f841d982,0x15db841c91e3f8463d59dc1c04ea346a54ee55a60acf8fd6829957bdf39cd4ce,0xc959f71a02d7d888c9dd7d0af15ecc59adb712c32eaeef64761e21955499a46,(-0x34df8b2f2629193b0c1afad2b9e9653f454965393e141c2ed13f86fd16f1e5c7),0x77720ab061076b4d4f062cd2b5ce5c848bcfafaeaa497a4ae6fb8facf26be4,0xb8f638e3d2cac9121f33ecf2567428d5668d58ec50dceb72bf08307dc6f4f5);
(false,0x2cace8ee9dc6d61a33b1292d74756cd76eca99297fa239a5cca44259594ac319,0x2c94c4036b8b6b9b970a387b84471b5b0c46e0f17fc64cc2be39c18282851408,0x2fa3ec55aba6b85aaa29667b8aae765aeb9e909ddd01a520ccaecc4abec861cf,(-0x142dcab9863b525eb46cfdab234b03c1471d787d76a55b53dd6d6809e5a07beb),0x293e94223640c5fc8e0d538afbbb5865e0916af0de6081b72c06af8feb012f9a,(-0x14fa7f2c0e5aacdf39a44159b0db1b25e66373fdb449693775ff9bb851ad56bf));
(true,0x2417cc84b63ef7f6a2de1e2e7066229524129c40200b447bb13cf594413424a4,0x2b3aa27e02177dfdd41ad6d0c914e0ba69ba2111f68c5bcb8a70abff735f06d4,0x2b76152d2c70e20bd0b3e5b3ccc66d83bf4923036b7ae58856cae448fa2c98d9,(-0x342584528e3c4d8e44737dc305426dcaf19efc538abbb174b505abf2af4c3788),0x1aeb7d4fa38093fcb857452ce63bf787d517d3a385b19a6a94aab40877755a2c,0x1022945ac63f3c791d6fbd56093d8528bed7e640738629d6c5e2432b7d6caa8);
(false,0x134c5a35f693165553e3ca1fd6f7064f63813c0f1815e364d428efa037a40f6b,0x1f47721a01e32f865471859cb3e7f27e913ac95fe169b36e719fa4624245c281,0x6041ee0633886302d13cd45cd0130a4e50bbbfc8edebd1124f041f7103a3a07,(-0x113d47e46a0c01adec78adfac615aafd54002dc6cf6ca9b97d83980c465cc584),0x7b22bc4965ac1185bfe15de6b5eca16f3923ce30390e3b2fe7eb9bc3660ed63,0x4c3fa95b1851f199fa11a81cc539abf98ee920bdb6157f383794ccaa05598d1);
(true,0x29b51b598010b97123c7ae6ee97cc8d1cd78e91cc1897d5bc942d3990b0d6eaf,0x106af6c7c032e5f5fee0bdb6d90e3b6559caf54c8112e6f8bc7212d11bcba578,0x1084a5ffe1ff5b15f4eeb43dfb7f108f67106764879d7943c6983923c3478667,(-0x32489519c3b202efc65c64f631c4cbbd2a308e8e7219041b3c9d00372bc5f571),0x23f2468f2863e224eec0e647d4f5f7625431598cd1fb4dc85a9071564749b127,0xccef7c13756959628f0726e957708c448dfbc6f758e6311511c1df25ee6f6b9);
(false,0x1593c66c4ff0f8eccb9e9e681949a176b243afeb29c0102f4962a79f4db6030b,0xd23cc6de174c0bfcc6ca40781dc2a7093718d75516f8d0542572cdaf3e57350,0x127a23f2dbc2b70b845db4e3726e7942ce711e38a8eb802e988c3746160bfe02,(-0x7520b309bd23aee528f0c9d8cc0bee85e524176db2d7a9bb09078a4e14221e2),0x99ef9a53266db3917c503bfcb776e60ce1a37a99be81322640c1a15e1fc29b0,0x1762c1be2568a3afa92ae22076dd7ffcc295ad6eee47bbee6d33a4030971b4f);
(true,0x2887a288febab0ba4e0c95d119b8059e40d7bb09b0f2e60f1edc16c78f7cb55d,0x385414c40c66f01c8ce5496f99579273d2260f8940e13d1629f2d2eb6dcc4b5,0x1f07c7a219bcb08dbaf756d69d1a09943646c01ecd34fcbe3c58d2295806fbb3,0x143f31b70900facaf15acea64ff14c533c94d1fbed362a6999de0c7c64a27674,0x21f1f3f219806b5f59b683d42624c86b9091addcfa222081dae92386b9ecf874,0x80e771d96f101a7d2791b1ac9bf96715b4f51ccf31d285e7320bf35a99c0b9a);
(true,0x1e208343331c7d66bdac622db451ea47c039553a94fc2a8bb2bd9368d39f1a56,0x2bd5c4b2750769494237067ee4e76947ed80c4e5fcc3c3c908d4cd7acd48ee1d,0x1d11de8ed915b95fe28b2dd7f4f2d3ec65a9ac3fab5b2e8f688baaaf21133d0a,0x25de52464c2130f9fb58948e68d71776629f5c00aa3ac1998d7c64dfbb728059,0x12c188412cf287dacb30ba12bd2dfea8ac475618d3663f492b91216512871d5d,(-0x19192de7093f917473a155072478f338abdefbf69dff8795a31230543d3cb1ad));
(true,0x6e466e6aa4c26e9ced7a2c99fb1aa950ca0c2f7523e85d9bd5e6933692e8235,0x2244d423e05af9ac4067ca18526c6ed8c2c58f5d0727e0b8d02352fbea2c14d3,0x2e6384056462b4b35449c7562b23b639d54c1c1eb78eb57c825fffb650fb44c8,(-0x6ed76aa97c74d288dbe08e0805a4b4d7812c8f84b91a63555a49a96bcfd05fb7),0xfb4b699bd487f399adcc87dc4590b42f70cdd9b4d170f8a821b2ddc287edec,0x15cca2b34d4760281432858fc35868022c9cb7dc94d1b8a2c6d68289e8e0e80);
(true,0x1f194e21d650cba7ba0fb4f0f88c3e6ce0aa36d4b4a8925417ec717b2c9142ba,0x1d76d20080375543d265eb3f981deaa1b66e8b014a124d2479d0e6a850c0b6a6,0x4d9957b5f3f3a338ddc05e00143fb30dfa42de69212b75c52cceff3eefe2d6b,(-0xd2e0465da9d55fd685571edcd01b15f6125f15c0b736b720e7b0e6e7b85df1b),0x13fc4e9ff53f62f9ab805b37722a161586c139e46b4324c8acfdb385f2ff8ed8,0x31675fdbd8bff442e8905aecd5144cc796358e7a53b8015e8063e1be9cd947f);
(true,0x841243bce8b234b753217b814781e141052ebd1e2630e61211b0fe8517b68ce,0x6d8e6d480040f90c19a416c9790f5dc1740e243138535d3d854eb8ec097f7db,0x241b1b58f9d31acb9492ca72961d103a19409fc79421ba4f08a30ff608777c64,(-0x342a22d672e24bf2e74764c4b5525f04bb104de540bb9d772481de69b12752b8),0x168733e51122bcd88e725ba94cb65ba3db0ebc9bebd3f09d8d6c296aac2a09d,0x3db9e45e63f8ef2eb06a65516ddbf3c956e2ddf207639e8ed6ee01f2d5f558b);
(false,0x9a7e80c4ca87fb995f607fa0e0a835def3c71b2e2c8832ea2203df3c3376449,0x1fe8440fe7cc9414be2395ad1bec41038062c26b9d9162afca5fc007217e96ea,0x19e22197bca0d2eb61a665e2287fbd2e4d9503243c9f0e975010bdec9e31169b,(-0x15dc41b85b7142c44fd972bea4ea23a9bffdf884fc1dc761203b1fe2fc47ff2),0x1ed3ba5490f086e5aee784288f9ceff6a18a1268283b0e76157534842908e0b,(-0x50017b7fdc129fa25d7abcad75be4d0e33c03ef1edebaf70c99f32e57c6ca46));
(true,0xa3fc03f7c380d5718388e29196bd4adf78bf51bb0a68cbdec3b3c05a5583964,0x1b77f3e2a48f1ddb6b0740e1fba08e1299cbfff8f002f52a6607981e187e11df,0x1f6a3dfb23739b77e1591beee173337a5406c838b4f2f587e9bb16091f32f93f,(-0x34269441efe35c9d4df897cc532c05bcdc9b553190dfe3ca2ab2bac226f27a94),0x22bb0dec59637b54d8b0785aa5cbe7605c2f42908817a857a1da24fde226f5d,0xf0a9a45eedd0f43b8b3187af5759caa62561f57a9b07c36fe5bf06d7375b72);
(true,0x14a0d4d266686803d1118645fb519a3c0498ada5e6e6bf1a27ab0d988a72f74a,0x456020a7ba0eff227a7208f00a6ca0ab2014b0a069081aa6887c38288826346,0xf604a78a7a6682e593339067c9265740e744c4a177ee52bd1ea6f8d88203e12,(-0x13fe2f0160804f1c92b39da4a1ab4f666a8412cd290ffb81066068cb5bbe7657),0x8cb16c4aaa2f8f6a2a39bcc4996d5cd584fb88b782896855036d4843b495a60,0x9dc613de5a06bbe391a957511f0cfc10052cfd5f296a983f8601fa19704dfe9);
(false,0x2e54a34ea44c81cd83b7e1111c51b9e5b6161c9b2137e261aba26c95839fd9f8,0xca7f75afe6520f9c8aac8b0a0971102e66bc9f23f1150911cdae17255ce7ceb,0x127bf81344992b329e8e2c9c4a099c10946455475bd28bf4b9434d22ed96e64d,(-0x426ba6b8bea1aec3494fd2f73adb354be00e4b9b392129bea5e5942d56f90f2),0x2c5b71e868867ff03e82ac92ac198b06fcf7c67fd27e9ff8c9b33c884d55800e,(-0x7f73c11c5ba38f35be4a6e6cc8ad18441618de3f871d9ebdbb04538a5a7d937));
(true,0x3dab6f1821c1948142e0e615b211a11b6b67ff861af36677341a83598069706,0x2f5a6f52bcc123c7918d9b6751732f5c0f1140648c9dd243c258d32d9374027d,0x862b6e0a8a62b8940e29335e72f1c0d665a4f37fbbc4657a4d0c278338e408a,(-0x6fc4b55781f23df1345f008440a24e2e74b4db9362e85f86fa690398d1bdd8f),0x4e97387e5d4596e1ce1b07452e82ac49ca1f837cf3385388e6cd955e4f17d1,(-0x2c37a856bc58319b832fb8b1a71c287cfa9a38baa4de3e378e4d46d363b6643));
(true,0x21b8eae4e3de6757b98e9886f6bf1893cc3e1914f22dcf73741007839def7dde,0x2123c0752cc7a8a655326aa7705603ea1ef71a9fb9b4ad1b484aa83ae05118e9,0x255d63eedbeb3a7f4c9d39193c3995ff84e801211da500c45571d9e663ec0ba3,(-0x7f52e36596d7a76dcc5889726aebb6779dd0020fb02f7290f6f1178b827fdfc3),0x177fefc1c4e78f95ffed32c61f71de0a9f51ec67ede2b19d25fe13e2972d6ea1,0x9e7a7430fd5f2cdd17bccafbe3c3b6c57a2d68c31f97fbdd5adfdab5205862b);
(true,0x188ac380d2a87e77f8c9e3490aca1d2b1e234318256acf6995520913791c0ca3,0x818de54f4940330fac4cc79c74660d000b0fd7987018f4045fe89c4d9405d81,0x28027316fa304aefe408724dcc8ce5a52587265cf0cf1fbe05bd5486b3dff696,(-0x1e2f48a27e851ae2f05943fddbca3dd877596ec888fccaa6ba371615a04572a1),0xc725225611254a5000f8c9ac0e99c284e19a9943b96d3a8f9f9a2cba0652076,0xcb34c0ec52e7741c6da9480208928447497ce18e8a45dd3312ae2d2c80430ff);
(true,0x1b23bebcadc8e5ebd7908691afff3486f48303b9548d1fe1d4ad0fb8af6d3d0e,0x13f767a77311961fb854d8be5b1cf2b630eedb65a6afb7f76819173a3e9ec1bd,0xa2936fb984f2292cd87df428d409fc3faad55eb765eb5cf8aa494fcfcf966d8,0x28d009eb3268b1a9c462b0665414fc2e3994d4b96c40f141d2d28a0d09c98365,0xf388297b955ee97d7bcf3124e86a215086085135b37db717d8bfc8e8f5c3005,(-0x6a81ae8e607d875673618da9f4cd9242aa8c877c7ded5643e4b88ffcb7124b6));
(true,0x28a58b4c52a1152d2e5447ad3f391b9c55323faae03041a453b106aaf80aaa82,0x28b488c1b7d59bed13348f7b13e15cbd19d9723082ed098a00a96889f995ca8d,0x2bb66aaeed237362bfcfcc816a1652f97e45792b492fd2a0ddb7ef0fe821716e,(-0x7a51bfb64c1e706782869415f498f75601ca58b02699690c38bfbfac8fc3d3b),0x22242009f68f2479b35f46c7bdf72146ccad1fbaab7492750dcfaaf2fce59bfd,(-0x116b65b047fed9c50adcf5ce4a6e52144af95f4547bd47b5da2599281a8771e6));
(true,0x2b070ce9264054cf132c7da27e69ad41a17f470c765918106f0fe18537acb95a,0x71ac4b8e08fd49cfa975a9b46bbbb6b5e661391615d1dd80c3c47acfb305372,0x1530844f8fb880352f309160389a2fda2658f97b3a2986ec1dc9a051704d767e,(-0x18fc144b6d812419fd282b1aa51dd5413eeff146243df49217ac1d5609e9b7a3),0x2642056e0309b9fe550bc0d66b75dcca84615ef1b33a32ec618071c2d4c74b18,0x1de04064190f44568bea982d61a0ff294ec977fa7fd2b866112da8325d737a92);
(false,0x229dd3c9a98de1c8619f59e8f612354e5e111dff4cf553e64d9072b350ca968c,0x2905dffd47b00e1a9fe60375093b8cc0b5ba16db0ed05797e51054ca0c51978,0x23fcf12a20da347fcf85ca0e6f0313c8b66a1abf9d7e14be8d673b46bb74f53d,(-0x51508c944fde9a3a7bec3464a489a90475fc38c7893c11f3e49da3b886d887a),0x18c333d65204e338bf10c76add8a466a33413bb046424c03f1dce3ce2182efa5,0x33f82879d942aa502b4ca76d3893062f73d315cdd7c4698da9877a7ca1dc4fd);
(true,0x1681385d16a87f9ae714c3c97588a16c1f0763d99a3b6e079d4e854eb5bfebe5,0x2599b9cf87d0f7c3e9ddc9992db51000fc28196baacfe2d84041a173dd167226,0x1c607e6e578879d0e48a6d3e0913206e8140d5e6668d3b45dbc94bfba3dc86c3,0x2110af8fe3492f1b0966f93c0ab51192f29cb7e7129e60f21a07bc49ccd8c462,0xa7745f29e79b432a0b3f186b2f9ab5288920d937f5b1d9002fefe92bc7395c3,(-0x104b3a59ff6a6c9bcfb02d2b2875c061b63dca8ef3656b4cb1f6b0c4904f89a6));
(true,0x546d3446b52bf54bc92f02db0d03705c6b8c41f32ba27b01811428025a8441,0xb532031b12369b5ca1261cf6cc80efc54747991586d47e97d87bd45683eeab2,0x11de99a63048c00b0f5d40dcdd8db3099d12dd464b302576f0ba50c745f41931,(-0x5742942ee93d7aa8a978360b70225ba291e5a52d31bc8c1eb24f0cdc3a3811e6),0x934b61a404651182ae478e259a31c7b645a15c652389eb65dc11539b4983,0x2dd7887bf25c54ec8275c7e6497932afb02f6a11e461f26a50738469889480);
(true,0x1653b64b37ee7df686ccb19e803099f9ba4f1d49765e0413b9e16162236b5593,0x1de9c8fd958da8f4dc4a6b781fa947251e073709e722954e11a96be3f1569d41,0x2e936fcaef195b79c862edd3616245195f041f5f550fad23fef552e614eab7f8,0x889e2625fda346b4e4e31db9554d23d2d506906a94b65174a7765b913dfccfa,0xa4d1cf1297522af7c9438301633c99ba606b39e0130271cf600a13055a87fc4,(-0x8938c663fd70d45c78c22989a81ff2ef0aa634833980490d5ad77168088d446));
(true,0x75f0766bc1361cd7d30fdf323939e812d2011f4821508baf746a73a44dfa2e5,0xd820e3d6d82852d9469b49686d37575c37b43dc2455d9e1187d58fe4871e94,0x2c4e0d9a873791025e743b0b09f07b45a68764add04f4bdcd749c74bac83e025,(-0x294874e576ef47a22b86997583bb8266bc9b1d9ddb35345cf8d831b7affb5dd3),0x11f704b8adc5458dc16b796613558ddcd32679891deaef528a1e313436847c3,0x46d89d57e58e586f573fb9d74bf2eb1de3d52781664636866efcc0a8f0a32a4);
(false,0x94ee33552f2f79351601328a2ad45b95e5dd59f32143a803cfd92f5288472d,0x264606f925f0057e2e0db30ea476008a6d00f7b09c574698d22cbc7b2858beea,0x29c07bb49b6f7ebfbacfc718a467ae67c6b82e02f668167dbbf8abb85f38fe4f,(-0x29927f65dd683a0795be206e26bc3007329d68d21bb80498d6be4af0e6bde),0x1ca59095d65abe45a7497ec9e2edb462ab86ac32afdafc842e35e1aba206a,(-0x7331363e634d980d8c60dda73062e262bf20a5a97bbc69268010c1f4bde792));
(true,0x2b4d436630998bbb773dc40f9aa64eb65c40d4adfddc7bae2c45310200bd9927,0x1d86fdbdf1d4ce2d00425413ba301b5de75101cf11c19f954976ba7b0e2d3d3d,0x10b327ec841321a12f2b1f221ebce317051e95f29111213a81319c5ac71b6246,(-0x1017966560f521698fd304a60c07d0511866111a141f3bb28858fb69c9c29f9a),0x26bf474ced5f9b288ce45bc604d9ed78f45c1c9dd295d2e2b6d618a42056e8e0,0x7d386ddafe9402c4382bb58265cd839eaedac99838ff315ba350ff1f385c5c6);
(true,0x108a751f288f75598a40bc5bbd8119a6846d8d621bc97103c720825070e37ca8,0x29d01b116d0ab7f1c415570f372d6ddcc2f788c9248f45f0daff283309e91deb,0x22b1919d23a81c55d506d16c40871bbd7cd0e30f5ec994b096fb672195bc410d,(-0x2aa240c384b8b649fd41f69973dfeae0761dc79d9a45961b34ff1bd812ff95bb),0x5a7622d461057b6038ecf49e8a5721909b9ac1823b928f13c0182d1d85f95db,(-0x43308c5bdb4a89db1c26363cefca47cbd2b3031e8605ddba9f7c5891b415d83));
(false,0x2d1683dcc4c2a54ab61ff5adcb7646230a4cbfab55f24284d03f1213d781510d,0xa923fddc4b5c44d6fc58ee629ffb1688a3e91b334407298d1a0a771b9870237,0x1e3f355083a4a841b6f13fc64bb755442b20de4369ce3b2eecad7593294b8998,(-0x26f54ce8edb1cf9d1a390fa65c5686339f94de8205ffdd3929df0ed7d8ba7501),0x2a02780056e0c39ce41b7f730f87589db341b68da31822a6074a21f03b531a86,0x1d1bd0d228d6b306bbc70eb405466ef6648c4b91ee7bdcbf486c8547726b917f);
(true,0x1c4900e810bf6125338883881f21f421815f5d29d22eb2b3d575248fbcb7a312,0x24ef9e8d98987b04088b99358698dbce7ba3aa5ad585bb55e9cd3b03ad74688f,0x228d2f8d1fb9b28568bfa6759f94593c3b92888a9c99fead1a2fd921a08a1054,0x1c6e4d5dab9fad6eda20248344abd43f15a089bc6ad6c397556f7b6a4b1231ed,0x108863977bd6d39d50351856069b1767d0421cbb3b7c22d3fa516b6a4b198047,(-0xf6907126a8f6a33431806b9a9822378e952352bbbdc79b3e4c9ff5ea198d41c));
(false,0x2c0acc683d304d615cb674782ddf076514309fb629177bbcacb6bc04f6f79574,0x10c549624a84a107150f295996cad46805ca68f184a6c3b2c0768f096974e55,0x10313859244372ccbe1860f9dda29506deba73ef0ae59523da2f002965360133,(-0x219db660bb529b8c14a2da483b267f7a207d3962f403c9f3e831311f90511d30),0x28156076b487e25750add06587582c467ac1f055c045eea152b704d7190c85ab,0x20a98024402d4f7aea8f2e546e19c9d565339ae2ca0d917604ce07b220a992c1);
(true,0x2b478c834583407f38365b3604e11ccd6a187fae519522668f93387e5323ce24,0x2d7d85ab18c79a6c251c2dea515c88622a1aea3029ed936a226964a6c7e65275,0x1571529e550778d13db3d9fd07f813f69a425d03d6dbe77d9e7f4824600d91cb,0x1ce529f9b3b671af237d144dbd9c0cda3e79a937c7967e1e74e332924256b1ad,0x26b50df1e9f83e67148936eb981cc45e99ed7b0b7abbeda970a2ada076c105f1,(-0x27bf40c23a36d3d76b628e4d77d32cbf249a22697c398e6a7c10611e1a11e77e));
(true,0x45cb8bd97be690c29d7c3afd6afb9512044f91b50526312aba53d8f9fa0db5d,0x1dcd4135947fbba8a534156d4102cdcefc884aad2aeb32d37b88cd1aeb65cc88,0x26e51a31bf469e064d493dca7a8a0629cd424619ab8c8215f3a7e08b213a8bf0,(-0x7c6c2c04ca259f2ea1687ab154e3f7a0e0e49a30d14e1bfc46b3b99de7543ced),0x64aa34c3a6b1de4af3bfb2e8a6cc0c30d1c6e9340d910d8eb3d2a76b05ce57,0x16a0a0a0d45f4fcdb6dba050d7fc3e088527b38961003650f074ed4531a485e);
(false,0x1cab118b97f323de28c958b1956867d733f83c9a886543628a62a6c95b381f61,0x3476500985a3caf6669e52aa4b96301ba00d31d5c35780a5c162d54be378274,0x26545677af8ddd719050f8709f58ab9a6b975672fd45c7873f3156b91c8c5d6d,(-0x11a7b739162ad0ff1ea5b866cad3eef9c2b0aec8bca9c5530f2e6ea8d0e37363),0x10fbcdcbfd2e80a645dcb8b962085cd14ab81ba73a1658c49128be6b4aab53c4,0xfb67141e90ef8979656806498dd3cb8a65b38f101e1e840950130ec3c1b9437);
(true,0x2778342a75da5fe77f90f02d4689e85a49a608dec4f9fefb39f383e7a52b610b,0x2c6184457c1dd42acba5abda8803097aed52beaaa384fa1d0a22287eb6627633,0x16670d585cef3fe3554cfa9f4dcc25647b5e6edd17416215a52212c4fe56ea3d,0x3ddbbcd7b7d16425dfac79f15a251b0b5be5ac368b59dcc4679b4d11168493ae,0x20313bf0203731afa36c37b65e5144abfe607794ae2c20318f97a88199a9db5e,(-0x218619381e9ae3644b238b4c9191151572bc9b4b43641700353d1210072c1fdf));
(false,0x21724e61b4b47f17fed9619b6f7068183abbcaacba49b579ddff01ecf3654bda,0x29e2f5e5e404fc59d520ba353c7e8a6a489b37fc5369a33e5a271787f013388d,0x2b129f799d9e2c499cbb62a2840e4ebff50914641d91a713286fb88e4595658e,(-0x1eaca13b8c24d4744704499a4933faa3c2348c85635c1b435cd0ba1cf41b8983),0x171ded2fbad68c2e2d90685f31d5a958c915f450d1c2565a31cf06305607c6e3,0x1b9583d71c0580f818ab9eb0bc870b002d651e340e815677fccb2ffc71bd191);
(true,0x66cd4465d8ccf74f20e0203e5d008fe54a54bdb1cd9f9d48cf84695fe998b5d,0x94eee108412e8cd5507c852a90eb711e998ede57d75e6b8790545ed62dc9581,0x282761602aa9a46fd93ceb83226ad3801376415645f5c191795381aaa4ba4b2f,(-0x615462d22125e5921af219b17ab5c5c53daf26ee7f4d13ebf0308b4c6db3fbcf),0xda6371baeb28a8bff25a360a893797a6748c7d90814dfe4c2b6ae40a05192e,0x453541e2ef34bcda85a6527603c20ad096dea163e8d97d6773bd100573d0e9f);
(true,0x1abc85e487191c04a830ef5d16eab2319c454f5da60485166128b889d600eb9e,0x1f4dc6b2ff1cf96bac190a04c6439ba7ef9671eabd7c5da507923fb718ffffe2,0x51750470f5f1627dcc2ff2437233be0075868b8e912c0586789e7a2e9f11b68,0x26ff988f795b050b858d2471831197e4471d7b225370fd20cab410c7cce6d701,0xec597081a6bc2196372c96817d56cbebaa130bef7416a7d849beda122224aa0,(-0xc2708fec34919658df45edbfa1c3107bcdb2988b7b20d1763392fc7e12e1975));
(false,0x651c2d80dedfc68152ddda9906b16dce49edb75ad40a7692a6c3ad2c33572cc,0x1e37379a9fd4ee2c38ae3b87d247e0c6f4f600f62dc667c1a6d26197c094a00a,0x2cc3b76e8efdad7d3850b04ba9ae3833e98fb709094f4eb8d94303b7e9c38a2d,(-0x41680435d60537fb5ef2ee2387ee512f5f01fa6ca1983c28fc3ce7fe0d52510),0xd342818ab03911a715b242b1a575172d84ea61e80229f4478c335ada5db2a3,0x24605b112f1b528cab638017ee927de6806ededdb1be37802b31b88241ea8b);
(true,0x1af97b02bd7c1344b9b58d956517438439788e0d4503ce1b5e38ea0f77b8a765,0x26c275dd19943a002a27300aa14c8557b21ff67144b1e04d6fe56423e53e0e5d,0x19584c2ffd62ba513682cede8e60b2c3c90b910885f0b47b4e11d689bc4889a7,(-0x6b1cc5685e414b5f2ac1b0138bd38e253d56874ce4358dab3483371e593c3aa),0xf093f6e9aefa21c14025afc3609159063ee3bdd9dc08b999598752a0e3d9f68,(-0x4c33622e096b07732735ae42f464d9e67e289486c5f71f3472f9460b484bf93));
(false,0x75c1f0049175ee2985c4a495117cd829bfa8e7db2f8181d16f2463bb07c7120,0x2212b44181b33171e4eb011d38fe83268eeaa651bfe77f364277d74ed5483ed,0x14227a66b2d2a9d3fc89a171a1ad92bee9abba269f715eebcf0c24d683b2cb1b,(-0x5e5180632f028d0d2f127c049dbc07dca254e5e5bec565de386b63f569f0505),0x11e8db0d0ac6a582a404cc1ec63d17d45764cf788a142b590e8d0a8466ab1b5,0x5922e083c28bca186f7cd0af13f35c29fca12753d6ac34a32022ac4c191693e);
(true,0xb3467746d7953eba873ad4eb1ed8d3332bd82154b6901637aac7dc7de982faf,0x948735840934b70da71dcfe7e6506e866680c663b30f624cf04c3358acef08e,0x225045a3aabe7ab27ae2362145d95b1b32289ace8aabe03727833c6cb5714abe,0x90af9b4ee7b52840eb73fc8fa22dc418a923043916f391cb3566af5ac885caf,0x2982766d6ee891a890caf7cebcf88557390bee56f93739f2c96f13e5739c139,(-0x1a8046a288b57128ed050d7ffdc8f150ed3382ec6f7653493377e31f75de6e8));
(true,0x1fef39b1c1507e4be9698e0bb88dfcf0c5b1204ed25c95ace2241ece5acc189c,0x1aa32c575c2f69ada632d5c156500034ea41a9f659ee9b36c5f7037d5302c12a,0x257c027e6508586a7a438d5925a361532c4186f79292a5622323a712acd591ed,0x27f21d9f9ff353e2a99081afed6d481dfda0c994d86f50464dc4f283fb2f0b44,0x1512f387d29bfa72ce39299af7fceceb5abfb0394e4739e3393c1e31225cfcca,(-0xb73d1636168d5ba1c3e38044fd211084bfe54bed76bd18f5ff33acb01b89bbb));
(false,0x9beb4d3f1a0bc15bd147e91c7191c1f7ccc7a4b8e39758dcd777a361cf8ef79,0x2e7fb24e4e5262ca4a885632891bb6b144e1be3ee6b82dd60a5a0b7f672c48d,0x14cc57f61f78e2c39c37f06528ab3a522501361c0f50bd158d5bca2a6fdb2503,(-0x55d37969f62c4009938ac5ef8089329e1ea32349378760c0d606ab23fc428a0),0x1f65fad502af12ac284e2e42356e9ada41f434be76781c2db79d06d98fda179,0x4c765b4f162339d044ef298427bfed19b787c7eade888a41d5a70f2444c4245);
(true,0x116bb45e7dc83c430937a302145dd7769dc5eb0e5dd01b50db484199a85a2074,0x24942857310b0f0101b0bee0ee9c66f3d5dfa4e818c2c967820689d09da2b061,0x120e020755a1da75c5925f724c981242c6038d635e0b9b194cce63e6088384ac,0xe736a02e5268425a20fb269fd0b8271ef65b858a73c3be6f4b8e0aa0c81a9bd,0x64576785bd1086923d344ef624a5f0b9a5d04f0adaed2f2206b6047db24fb15,(-0xc1f34320deab6490b828d7dc6ab117893d761a2bc2b80524b7d4462301805bf));
(true,0x1538d182d1b9946b2bbe6c52b0b16d235c9c616d8d02180178e32a9cf1f3d840,0xf01eeea24c32e7d4fd3830f82b09e7a21db72d5c6d157ac40545ff182f5f53d,0x2feab7106ef4f304a1f17fd35e0bb6d7135f47cc03aeb51fb5b1860084185a6c,(-0x431cd25090825d47e8e74b041ce8cd26ad6a3026abbd06b2a7e2775c52aff843),0x94e87c381241b6db1e96c34aa8f4df7223a25a2c24609abe7ffade611f0ba01,0x975bd1f8a8827eb3e46967c3992e2a8c4449437652b448aa32c3ef2e3a549e8);
(true,0x1bec8fcca4d6fd25e8411df8312caff62b1399c82fbbb68ebe093a833936414c,0x1a95445e15d9ab74ab44e332bb9e3c6c5526520e1a6652afa7f816dc5b2a1711,0x1dfae9e3bae4a836ad222e98177a0fc11d9bc73be696b5b6d521bd3aff546701,0x2956596d54e19e2a6ff33b96f7835001a7f0d35e79b500378b916f4788e11685,0x101d038636bb0c3816f659353717afc45b06176b8307bd944064ec8863a1ad05,(-0x6adf7201e7e242815dabaefe9a8faf020c53494b80ecde22a84631e1635a05d));
(true,0x1f1a27d0d6d486be45b4d71dd939591367753b214e81dcfc76c9a14bbf968cf0,0x1a9e8cc234a8170968df84101666c25ceeb9056111311be72af70579ba8d735f,0x18f28867d9f991af00f3381422e18b7198facf573bb3a23c7f73cc066a5a15af,(-0x545707462d5804d7c42433c17c3fcdb59f45dd1b5c0d5c8e90a6b03eae1f383),0x13fd666d56ea54b7df95bb1be777902b1a6bd63001e26ac2e8405bd115f5bf7f,(-0x5f757db6b4468307d831ef9f02172fcbb8f144bd7872f6ce31a827503add0));
(true,0x85ff8abaebca0154c9cf86441e8d02344bb8e000aa4a4de118afa5511abd8a0,0x25f3bd50f77aedcf42a9635c74fae31a408aa65040e9d3f568970cba2c36273a,0x2f9b4d8797fd98d03f2c8e277f442cd4699f56a673424dcbe39eafbc0214cfac,(-0x234b11352a252cd11b6244a8fe9cc69b9d9e113f0de3102ef6fe71fc08f10d03),0x1730b65c0e3f34c9f304642b9fe7a956d089dc6ab7923e73051f9733bbd5608,(-0x1f6178300834a46132d8eaf34a74823e3c7da293ee90f9f9b5f59902be9163b));
(true,0x55b407f5375473756ef1d205196b18d0435d7a39368539b682e5996495155c9,0x734f1cf4372657be36cb993abe5a8c27c2b63309c4a8e20324f2d8faca60440,0x78686d00fda22027d7ad02a4bda8a4efc28adddea22cdf2a863192421d51329,(-0x4ec131d533f811092bfa98f080827a795fad0181711169d6828a94c62e01d754),0x97c865db0d2797e8cc8ebd75f32b68bddd6e3cbd41214f5af6b5d9d2dec51d,0x367364e45d99ad0238722bc718b4221b5007870a5f104a4ecfc939c8af89575);
(true,0x2a0f9ac88f4189dab3fd680d6ab17f31f62815d197fe26b10acbcd545d3d0a19,0x222ee4b54b83f2bbcd2da1534a98944f99c3e6ca7a4065142ed8e79fe7c93476,0x1ba7e2cb5e0f3e3c53589123af603f98f0289154f1fd6aed0d150fca1292349b,0x9dcb1dba311087794bf3c53025d354d7a626d3a40a8f73cbb8d9e6bc370c202,0x248eee6bdd5fe8e238bede23d0c4d9ee2e59b400c525d721bf618908693ab97b,(-0x17727a2730d7b4d197e5ba5305e5990a31067f657bd8f748d2c14c3a1597190a));
(false,0x1f8b90498c204dfba1d93bed7e7acbccbbb3977f255b75317c4325ca68fabb4d,0x16d951f3cd9eaf5887f03ff23a87cd59e2f9546625be29404100d8eba41de5ef,0x1c1edb56f5bd4b687102fea33c86906d36cef36ee1735bdd0a0765546e7ae02,(-0x16487194c3e91f99295b703731dba2dacd39d3aac86bdcfa84e40c2f02c530c2),0x1490376ff65ae5f7bd426d5d60edc9966408b5c62f9d035a80ae94a98f867ac3,0x76372bb0e2326740f97d1d10c730764267ec4c860b47450c61226f68b3f58fe);
(true,0x18db6bb4fc97f82ee889d8f02b00b7bd3d4912a4b98666f7d4e390321173604b,0x18f03547f948b838446f376084e3f0f19f9462e69c6f9c19c20a1f5bb76caeba,0x733da3d70d190a61d30b01305d0eb664fc964b0a3adb6bb71d17c5ef2e9f637,(-0x1e8f4d6f5927db02ed7c9bdbb91f6beaebcde26be1eef58f96e79b4de3f4ea37),0xcc4a82af2bc87f068a810cdbfbc3537ed676a8cb67b9d0368642784adf1db61,(-0x112c09fd48a1dc697ed9bd25e47c2d2961abfd8bbebcb2bf30e18ba3b6397b2));
(false,0xc3ca50c118b4884df10ea3c2442e1a8af1ca0ccb248be6f19da0456abc93a49,0x10502666b4f3a6bee6b5ff323fe09c17c8085508c9c182843171af3a78d84aa4,0x2e2258a2cf67cefe005b3f056bd40dd0d5f1a29d6a890e38f9d09dcb7539c3d6,(-0x64e61ba84262e42047b247e64bd0bc764e33d907a3964d395fc37b89f29edb6),0x31827c35eee5e8a1172f6dbc84377502561cce4c38f7a065960af8f09a22f72,0x22e5aa5e3c0eb88dd1b830bec50b702fe2fb29fffd87e465cbeff0ee61fcc39);
(true,0x2ed438b1ba262d57697603048208e1572d2ff7c5a4f6396732fc789b471b56af,0x791af7b2830bbecd5c37c9f23da968c7390de8993264af2b1854d1ed2509a65,0x2d942e0f995708c463f01e09856bdeb47e12e4357d056e7a879c64121c8efd6d,0x48ca75dce7bc4fc8b53df9f214adec92044d020faab3967d650157aff827db64,0x2d510eb042cf73b13305358e5989e08b70da0628c2bf6a41bee70a05f442dbf4,0x8762c27f191c253f0ac4bb1cc33b642d0b05a08c42b390551a21e75c9d2e3ce);
(true,0x19c30b86b0094a6724c2f2bb95c4b65e96d155f71539737de8630a1c922527e1,0x105ba3a8cdd09a7adf592c292ef1ab7cfa53f75ce1039ce521a88b7f5eddfbaa,0x1968bf5f7c33a58a3bd9c281837bbe14bd964a5584913e6abc5b5b1180da461a,0x2cfa1f2c9deb2962a666666b82c380d5045f96af9be2c67d21fda8cc9959ac0f,0xdb6f104677c4bbfa3230857cf97a9e270eaa98de31b99096dbd870cfdc1234d,(-0x4adc95aef01ba1734c2b4cd5509adbe3d864eb810f5b39e8bbf6dafd876442c));
(true,0x14c7819355208ff8db1418cf55b961395198cfac801613656d450d5f94b6ad59,0x142998fcb7c34c3290618f032fb59f3b84bc9436a9ef30da303a35e6bbaf5d24,0x1cf563d57f0fec85bdb47d4db277529cc61d24c84cdfbc394a7c6d78979d184a,0x53b94568e578372edfec733b510869a87b5160df5bde29fd22cd8b2debb7b68,0x8ec2e9306e911eb41174471e0b05ca20116dc4b1d6fde7260c59e45ee821479,(-0x1a23712fedb241630547c09e0184756cd53762c2f6b59f7141109d390ddb3ce));
(true,0x13e96a9d335df59b69d1aeb62b47dab759047eb9af9b24adfab250a38f148f38,0xd72a487786b5739e1ca7f0bb015786637bc02850479e4a986465424813e1d89,0x2e30bf80ee08f1d75dea28cd4855bd5adf5296985b4395f810ed620af0bce720,(-0x15ef9d665f6c5da72932627e0de4c9c1412fadbf500b39d58fc0207e5e43ad0),0x8316f17b4896093b98979f8afe74015df06aa52826d35e1e52bfc203842c46f,0x2c34c629fef23913a05214091aad6ae4b97613950dd95e1b9e881cff00f7f7e);
(true,0x1e5f4146c84dfadc5e7ba6531a3c70da5017c9da4c64e2604992d988db02cc19,0x121c1c7e9cf715d4e4301fa02e6a2e7efc6835aad84b8d86d367b4afd686216c,0x99baa2a47d4f40d0ba6b6bb9fe21c09cf66502d6e9f073631d5d0fbeaeba09b,0x2ec50645a98ed80d52c273a1647637a34e81d7dc0e380b64134fcd3a16732a4d,0x130ff8dd2acc44f157b74c080522a7199801a5b53c6c6ca02a10e134f0197df3,(-0x2ed0e140ba7ce7605fc6aa82973be93e3b52c8d0f8582301f5bd3e92b8fcce6));
(true,0x60f426b8aa97e79f8114715704ba9998194b25a6bbea71801406e4a08235371,0x1ed069550a8f57b953ed62950c1d8ef026a2c806276509d488a5b3eb6e058121,0x19d7bfb0212bd61eb9fcf4a1865e6f8b58313b8d0bdc67a77f16ea4158a5dc07,(-0x11ecf5741998d7d4f691db4d9b037aed040e7cbc662078074b3b32f68bbcc5da),0xc23f88431a486d600cfe91ac792d2a877da949d64d072c0889d73e6106b3e8,(-0x197407c95f2a7f257857e6aa154d1be959bd86629070c7f0a3b25ff9c916a87));
(true,0x2938e618340101ea693dd047296ec03dde97f6c7a4af6f74728510030a9f8f20,0x1e9efd35871bb9c00498a55191ad124313cd93d9af5aba5c7b543784df2e3987,0x62c42b3451fa77f0fab6c42317c4c3a7c7d5bec65d73eab81a2797742114c36,(-0xed5f909ba4d32b2dc8677688e94c41e19c834cbf0ddc8097b27a178d74bff03),0x231d6b2e1235801fbcc9350d75fe22d21e7d548fd4f1c249a23cebbd4e8b8837,0x2a19a11b583db9eadbd955a2e91fa0cd642a7b1d49c82a3b3dc2872dd6d103);
(false,0x1f4c1ef2a7910be0ddf359b45f8e8de765dd0643cecc33accb0129c2c834c1f7,0xb69518b3d7073f85ef8ffb977da3e82291145d1ccc378f976db004c0db6ef82,0x22f87c6f0b911ef7c9c830560cc3fe081a9c963646ef6cd48e4173c46a5fa37,(-0x13cddb1b440fa7bae6a51360f150e2dace02bce1ec0e780bae6ee57fce5d6140),0x143dd421fb7b0d634e6c47742b21b103486cef1cb88d7187924355a4d2693347,0xc6c7f3957f7e8c4b35a7e11e764941ce13babfb21b01c222a24d180d132e966);
(true,0x1985bff74e6a4438f0d9b1764db065e7eb3e5aaf100a5e1507d6077bb5b44b98,0x13ebc1ee2945f6639e02ae82122121097bebedaf3c98d7e99c77f1ea2b447fa3,0x16915920504c24a5e0e21b6222ce5eac9bafbf088a684b17507286891b342a2f,(-0x5c471b4fb6949d476a86620de38b1d7976c1578e76c6cd8d9f034e4d9b69ebc),0xd75fb85cfb534fa28696b437fdeca73890aa8bc85f0d18b270a52b29d600b99,(-0x47cefb4a83e6b201f76d455a7b64e09625809e0d549b1595ac970f2f35562fe));
(true,0x140a856687d7a2d5a099e128829cdfdf2b84d20b7225ddc12dbaf21293322076,0x192ca5924b40c1472ba2c31bef64a44d13709fc477bf3f4cdd9cbc79627836aa,0x3055e495479a15eec0397827d1d01621baeaee34bffb36d62ed612ec2beb37e4,(-0x5e8cb83d0379965a99f3fb48afddbf64f878f1a451786ed3472a0064db2c207),0x84cc3fae837f5753d6478cd4d5d7280efe2c1639a5cec8a168fa459bd348074,(-0x22cf9b6f7df0021716826574b43b1b03f9525072b455e2afeae5580c4349f4d));
(false,0x1d02e7a8a0c05d0bbaedbe7a57a855c3c31c500741f59ad95365535e80bcb3ac,0x23b1faa19fd4dabb8c5ea394a3ae562ac533046fdf317452b6ae44adc375859f,0x25319d23a26b113927bc067c70fe0beb6dbdb8ab64a29b1dcb598f282fa6a910,(-0xf17a02bb801095634212d993222eb603e7def4cd83c476e1d89ee61716cd3d4),0x11647fa1ed4c29ab325ac09c772df350bc2dc0ddb775b17c6de3e9699ccc3f46,(-0x64ead805a86889f9b378a6c1ca3a96f25ab7ac13dc0167637f484161fe43c90));
(true,0x1834a2ef6eeda4c5c3daa3c6bd32f7157d3fc5739b5df12435100e11ecdacfbd,0x14e9c4379806ad2265504001739db3d72f293a08e98916396fa07a7ef5091937,0x215af3bcaac3285696b64705b1fcb50e1feb729a4b25d3a8aa5a70404abe55c4,(-0x29c7e5162efe60dc1bf16a0784d93acacd74f29581fbf625b783f677c88048a3),0xc1b8f7355ccec362e92c6d5da5d2ebfeb84e318c049deaffcdbe68bb2830d14,0x764dd653ddf536bc6e0e743f687d8714d0a1b7fab3ac93e4e4a8a4b07df21f4);
(true,0x1ccabf103e7f5e95fe0ff6b7060b5b96be18605352bd2f6b33e1cd4275e3b790,0x15d89a98b0c31dbb98dee8eec47af244da9392bb7222e53e5fd8a2670eeca2bb,0x2f64e78e2169a5d8406918d989b9e5596363b83c049ec44ad1105398abb841dd,0xc93d8e093bd1c1bd6f68806bd4cb9b89abb52dd850a3baa1d53b2f01b49570d,0x11216affd241b0fbe3c5c9e2c5c74dee8f81ce5fb7a1b4b6ace6c9a524005bd7,(-0x8e1a413b97a12f6d857337cc13939fbeac321f93d1e8dadd1ab55781cd4de1));
(false,0x8db38dd09190b0320fc472b07576a2cdf01866e8e07b002382e522f90182003,0x1f9877b75aa73579b360d1daf0a9a4ac1ab7421742cb4a0c7c4a3310e591e557,0xae7d3a6a18a6d5d346f6f1a66ecec0d682a640e06892cc0e8ff549327d56cd0,(-0x3ff8508d262757d26ad141c12b4b40ace10766480a58a232146037949140d7d),0x19eee69fb64e648f1cb91034dfcd902e88edbc969dd04a6851e5932d01237f6,(-0x1c8c69520d1661e520a7d776443d10bf34f756d76183893ab25f46c0e70f681));
(true,0xaac823214ccf1b33f3486605e0d7cf946e266064a92448cc4cb3e451381eed7,0x27902a2e5857aeb55e567957e5f7f8de517bfe4364f6141f8e1b0442f26f4ffc,0x218cfd1ca4066551300b6d616a2db606e4622a83eb3f020c15b0ed484788c498,(-0x391390a61c5d6ee9960860252caff2dd8d2a099e889e5cdc8bb825b6a798c553),0x25ab6baea8e91f46697725ea2199ee7a5c12326badea263ca399e3a2fef5de7,(-0x1c1e635e246c5ce8ea5a7c4f4a3560fc9595ab0023179c6b2829833c29d27fb));
(false,0x147cb391b4f694568ec0342ca3928f9550cdc302a3d50fd71f94d7211ba2f9c3,0x15e4965bdb36864665d62792d627c0d9eedadc5117fe4b80f6c93773ca6a2920,0x1c2e44311f6d6c3a1c11c71f71586913692fdaa731d36266d457ab5581ede191,(-0x10bfd99cc956847609b085a971bba0d57368765fd9addb898a7e4085902171c5),0x8ac6448aaeb8596c9118ddfcea6ad202666e8f1ec7c224a60ad83a6339f716c,0x77b18ed30a40709540a18fbddd300a7418766b34e172354a1a559ed3079ef6b);
(true,0xee55adc753da33e6864ca6e343196a4b31f6e01e7bbef72a834a320347b69,0x12c0fc43834c7bfc3e917acded604bdcf91f812301cb54ce31b74826ef6c8a54,0xedc67f13f49df605c53715691e8542014debbe4b309c32ad7def9b544090853,(-0x1da55b3642e8925ab10af5e7f33641d9c423363b43a3d7812a9afd1190856d0e),0x495d29f0262ae3c37cd43fe7a123738433267a75b6cc98e9c47e9e5347d,0xf75d266cc64609973a47d51bd862616aa3937198c2e318c7e61128cb3bc8);
(true,0x17eb5c9cc02b6f0f062213468df27ba62dceadf3a54a2089ccd6ca7935720f02,0x1b890826df2baf1df4b90e3d90e66b7594752c3e914d0a2426d77bcd8edf5792,0x2985a1fa19fb2a02763c482acb8236dbbe56f8c3f57a444eef20c351cb83dac9,(-0x71cd1df19c8d64a4b79a6c7933437371f3585cf7d4ccaf8279fcf9de5d22764),0xbd2b08f3f2bf3adb7ded1a61623edf80c99b93247c14dc0536c530564f0cfca,(-0x4572d521bc736e762b7f674e36d8b359000b52985123823ecbd31b0c4151f98));
(true,0xd42f706a17586ac110cf01fbacaa33f42d43f40aa447ce3dbc4770c14ee531a,0x3913a259f387fa34e634ac61320f0c3406c1fa97155544ae4e97c909b6a2d0f,0x4399b4a9d2d869937f906c14e31d1b49734c7621497f6939fa23b8f4cde3fc1,(-0x183ed400009e5f399eba9b9034baaffc24682ea81e07c7e9747e2fc3668ee6f8),0x3a260569d49c8eac692f053c17fbb26891088e1b527911cab8d9ef206290271,0x6917e075cdf9de87a64c38a0a2ac0dfe8d88ac8be61de1ab7cf4b4ea016afc4);
(true,0x2e85842501fb130ce5c095197299c0fb9b5015f4611480c04df90b002f266957,0x1d5bd6df9f936bfb2acdfda3dea7b69a402d64aa3c36a2792585d60ae74da35b,0x4fd17e6ad6eac39d49d36709e45e3bd39f9647f7b0298141a635de23b6b32aa,0x755a5bc137304a9aba493808144d488bd58c96d3697aa3673c3f3388398d28b,0x2cb93b01af88c63465d6545f64e3d2f71d5d5cff8d83789c041c9546c50a7e18,(-0x18cb6e449bb3ec5b88f82cecc16108eddaaebcca89683209b2bddb551163d23f));
(true,0xee2b7931c1b34b47b9a88ab3eac4b86ef577ed44cd53c0becc037ccff870c5e,0x1118ed2ed72fa5cfbd9c3fa1577a06984a8871ad40942f9734ec3034a2d691e0,0x2534c15964349d6f5292c688b7e7ee238a110a8c72b2ca47e83d75bd32a40dc,(-0x325da14bfd18498bee046da2817812e4909f49e1c90740189ec04f651a2be233),0x49433087319dd546696192fa700c347f7ddb97742d5448c871d7d6dbe4b19ee,0x3c58c60b561e9073467d9799f4121f9dec13d4f7250108ae2d277c6a6d1bba4);
(false,0x2c9d5f0b86d81550912f362aee85cc3bf69977af19360d38216661bc73391379,0x29b2a76e667692502e2a87f3e9317f0e0961fb6db7c1f6a28d11f10c5706517a,0x6a1b2cc1324a4c66efc8af72ec4818a2bcfcf3ba6dd9c0c0197c819c80c87d,(-0xfc34c2bb8fab698dd50d362209fdf75bf4b2dc012937aed854197c9aafa65b7),0x2921e8560b2cdc3cde9d1a224e75ddc4fc7c4ea86f7d45ef01a2ddb4c9804bd6,(-0x16ae2cfd3b6ff345738b9887bfd48bb80788172fd8d5ba513b886e332cbf0723));
(true,0x2da9c8c0a99d47a28cc4474322ef3450b3969951ef63c59eb26717240429dc17,0x2bc0c2483b23ce6bc12ffea5fa5baa29bb55a20f8cb19d23676b020f6191006a,0x2da16c3803de990cd6c6ec7b02ba6e5335502b775b73e4ffb863d2015500b011,(-0x6b01e5d2860eb3da8b0262b6fb4526dc065d1c07a4d0dc1fff1dd27e4f2e6bf6),0x2b16a60700a6b66f58faae16b4b059bcff5acb846c0ca007cc3849f814f7e6b3,(-0x1f070ad0236dfed293edad7063d54e9d77bf5dc77b8cd447fc7c733b6bd701e));
(true,0x1c3a98ed2f6505d69b92f35f12357a01ac457aaf83b5f5b426fedc808ad608bb,0x9b96b5a933069a4cce0638da34e0847b60855f38d78d0865889622632a92f68,0x256eefe3519b2bedeb8edbaf9820282327b0d885fcb7e0e50910128499ecb231,(-0x4170a9bc12dc3b7147a52a4f6ba09f758ffd40e9a6c28717ec81c553d9ce3ad6),0x1077909be2bc88d20f1a43e8b189d2d558cb6fccedbcd0ef5dd5aad90f25085d,0x13d9acb9fbff31e4edf3ae61d02369d44095dde1288ea8a08391754d9e9c5a34);
(false,0x28d683837d754bbfc732af71eba7514036cca04d83b1279d14d8ed1aafe1c797,0x2cc09ab509cf9a58b704664a2e84e1ddd7e0745d5e4cf01cb5b33023b7b799da,0x9f726e2b7629c56e1d20c36e6bd6fb8b8b80f25e72f6d7625a9c34285b21fb1,(-0x834d34d15a9b2b727adb7dda700d2d520065f79f57976dcbd87048e207d7bbc),0x227695274e4c907ee4ac61fe3d4f308dcc48297b504a0e83cf432867daa951ce,(-0x1d8f6c5b2e8b45bcd4067997e3e14ccb399471c371c8f938bf0febd44c103920));
(true,0x11a427a46f9e988288c549d51e396e348a0189d5b4107dad449fcdafb236af7c,0x268a7a86d723ff6677004ee2a152475f67042e38057aac929a08ee4a2b8eac06,0x2b87a94b917134cd7bf0b30dae8e75d034f14f2f23513279d2f7522dc3ba9559,(-0x74e4e0aa92234b03d7c8f056a704cbf743ddba66f49f9ee6fbf7e5b3abd83774),0x66e5d099950892ddb622a60c6de96b218d5d2fbecebdd8ae302cb3ab59ce456,0x243ae16d0d9d71919bacd4387bfdd868e5fd506cfa1dacaeea0194d87b269a6);
(false,0x28d62d7e37a7fd92cbc885387dc60fc17ddeafdf81ea8d631c1554547797127a,0x175e804afdefd562814143ca5c0f6d3a3766e0f31662171a620adb8d2fbc62d,0x15ebd888acbf417206378eb0ac748075980cb1f1c455fb67cfafadf896b45b39,(-0x20861236d0b58b1be2818b2f15e8f8337518ee6e83f9a6cf242f6049a28de635),0x227603f8523bc6c9ce69a94b16e47b0cc0eeb8babab524b79b5468a03ab6eff0,0x1f4a8a848106ffc3c1e694b8ca5453c352583489bca90ba4adb194d721badad8);
(true,0x93e69e062f725708f1c57c36223c3e11edc14dbbbaefef9ed687d38f2fdb44e,0x1963db7b0a2e763495eb9b1a33dbb2e27483a85239cb490fd1dc390a1f60c2f6,0x2365ee0f9e6b316740d32a4118ede6d761c882433db6693733b1f53988885105,0x83e17ce30b27b4daac13e14cd29b2a817938463f83e4e80e15c10997be2d301,0x1c4083d4b5e8b7029f5a34a399ea416feb1b4cde45787aa6ae28e6cd3d17874,(-0x4922dc68835432c88e630edfeac9161d6805a40c63553bac0f01011fc64057c));
(false,0x31ad1eb25450095a9839bcffe8ffd319aebeb2bbb79afe220a0125074171cda,0x23b6a948405bc98e100c15428b4edff3a2bbef804c93a6a13fcf37f2282a1910,0x78dbf279ad7eac16094e7570b8d64625e0a56c9d2d55f0c8eb37414dc260d61,(-0x1a1060ceb61f0e800703ac032834d4b671049a93c422523f2edaf325f72a6c9),0x32fea92bcb064dc75d8f6756f61cb25413230d9b60d88321be2c954ae18d9d,(-0xa98f32a2b714d58bd312189fa02efcd8bab156750a2c9bc6f1c3d709e2888a));
(true,0x836daeb7d6e9e3f2cf22a6fd27ba708ef66f0314854e2d02eaa65e7ef525dd,0x18a303ce29e9c1c647cf0663b23699924a748dae984f733f1f6c8f5afc6e7fa0,0x1766ae3b25c2ff6cba25814139c6b026fb9f7efc215a15c1a2f8a3e7647d3260,(-0x4ee905f18deb120d8aecb430e3a1615f082f06cdd9c7a8835449869fe1e13f86),0x164f31284ea5e4b136afb6bae5590549a2313070678b569d867d04dd8ef09,0x1e15657871bec6844f118927c3b422d021aa78a815402ac450a03885ad65ef);
(true,0x2f286785b153e9e8e4c19ee86e0b8b7529e1a5d55b000c7734f150eaa20039e4,0x1d4e564054b64142d6045a9330d62cf439a3f75558b9408ade5c98702812baa8,0x269eb6b3a94154c324f73673d151b24b64e5ae22d9a70e0702076cdab6a70d46,0x7faefd55b53e741bfed32273ef4e90c9eb3e6c089eeb585847838bd78100f00,0x2df48ece51b4914e6a241d9fb9bfc723ff10050c52b1f31484518d60fc279928,(-0x48cd760aab1768eebee25fcae75852dbe215c95243378fffa2a2233fa8d9ac6));
(false,0x1f2082b54baa7296c73218473fac99965f27ae0bdb28b98d69d43b96d9d61d49,0x1e950bd8c67f7c43319696164d02f830274ec19985b55c9d9d67484eea3cb189,0x1718034492b9f3276c0233f3a534c197f1f43ae0f4f5f78997f21e5fafc752b6,(-0x12d9b7590535200289f9ae41ebf353efbeefda361ca03c15675c34f63eae3e85),0x14059284f3d0475ef2ac7b9c0425f7cb2019738a726191611875bbc59916329f,(-0xd22613b9a89b98a0a5b5eccec014f1d23df3491ad2fad12f0b4bbbee734325));
(true,0x27619693ed348ef36e58fdf8f58a98ce431e2031ab37d810e88efe3f0789a2c4,0x17c6345023b17145761a92bd537afdd32ce8af50159f4a9b7ceb624204c5c291,0x9a47b590ce01412ee3b6d4b8dadebb37690dfb563dece78e19bc3daad036462,(-0x1464ce40e1d31e13fb65bc99c07f1111b54e9bc916db4a44f3adb454bd533343),0x200c623ff7035ab4f0cafe90185c1451f960125ee92bd64e6586b2814c05806d,0x58a5293dd9ea5cddc7ac749fb469ccd8029e6d8e3c745826cb5345dc0352ec8);
(false,0xa378202319cd8eb56c7b3ae7947e9cd7a116199e2cc3f72bc9cf97b1548e078,0x2dae460de1b5493056bca3004da03d8a99326b0cb13aff946a18e1946b3de1fa,0x235cfbff3ee7103cce437848e1aedbc5210a878b97f5edd6f70d6813447ac0c9,(-0x504f68630f079fa94fa88184b36066d120322b8df3581524b798a3344acf64a),0x22834688bebb75851211840e47011e52634f74de97aa430b03a2a37884e93b4,(-0x4a0040494e2496336aa1be2d93f1b0fc4d01b61104243e47bd114b0b7d0be63));
(true,0x2cb20b996be49d4b6e376b7ccacc54fe5087757f85115d1792a9b44e499966ed,0xb85f9d662a7dd95b2b1ced1275ccffe8f22e565e20208348ddf9cb3ca165034,0x8277ac5b643f770c4d8f61a6fc80d56e8a09b82b88a757fcd8a662e9dd7b00e,(-0x400a653851006fce1482db26032e3c004b85901fa5ef1226473828b9cead1842),0x29481015e5e658e5c052ec0acefac906fba7d4a4ced2595b8baa7cceca19a341,0x1f8c60dfcfda311cd7efd144f7cde1e717cd3dfdb3e90e8b7682a42018ba6777);
(true,0x18903b02b9fb89a78cc5de8caeb06051c41be6c768af9e6908d5eed90320befb,0x2c76a44293e5815d4e51779bcece0faa1727090d5cb05916e3ca01bcc438447,0x102e5d2b04daba1eae6dd10db1db69c9b056c2b5c3e8feb616c9ec69121e05a0,0xbc9b14d2d75a4d453229b504a7b7c21d4eb22dc7cffc248cb76b66f9663c4,0xc77de4aac3f3aa37926a167995d6d925a3af709ce5451e2309febbb6ec9656a,0x47047b6bcf1d9ba020a64ceafb2dd4f64c980708212a9ced2f1cc39f5b221b1);
(true,0x2cbf9d28d83dfc177208094b2cb5efc52eeb94a1be1b9d4d4c4c6bf17f55be99,0x202f94baf1ae9e00d763cd26e1d0f3b2c257a082b9906d04b34ebb021de5c89f,0x1299383dc04fc61e30601d849b5b612da1baaf160e298549fa8c159ed9dc5038,0x1d726c9aa79c5c71c9505d3a9b5f511f24c0e02d2b40142a7612fcd287f2562d,0x2961245da262ee1205abd2a0aaae86f726f06bf1348e90ab9dc90dc07714a644,(-0x1b31625ff9e54d528547d33dad1e5261967b32b25bd4438107b6df0c7de67e70));
(false,0x4260dd28a95446e48802fc400ca9b0d426d44b03b4c3f9c4bde20e6d397e588,0x175b5a35b7b608310bbdb8c37f644f6f70d3888ec0e93904c6e576389ba0ed7,0x19da14dcc176408bb580a1565d735a0bbc5f96023b54049f57f4a1504c99b5bb,(-0x2c261dbb4d53c587e90f0a9c8b0d1100f62efe39c7ac8ca8a0205e2e61cc0e4),0x5b0cdeb44eaf538448880f2824789cc0ec04b78f5d4c19e55a1751ac9cc0c9,0x2a25810c6dbc638b5e9cca51162de895263faf33d4dc59973bac535eaec944d);
(true,0x98347121161c35778aa5a060c162636eb22a2948742edb6060cca9c6dc89431,0x1614dafa2128aa0192c5874185baabff222f255441f24ac5c70c1a3bc3c50ba1,0x13b4c3d9f51de3afa95320d389e2355f1821500949c98a39e89af8b67b9da6c9,0xa0820bc432b95c86823b335c45183778f99ff5fffceabf88f4633b5614f1fe3,0x1deb94aafedc6f89f8be34d1744eb8f197ff026244135e1e321a627e51f8812,(-0x40dc48fc2f55d5a31d8dc8a259bd77dda0281266bf3116526fd98229e46872e));
(true,0x165cc4c055b521236fc3538f1f77997ca9b884bb6d56cc51275b0dde940dfbd7,0x1b4d72fcd1fcc24faee3023c25b7d6208d699e4a91bf53fa6547b156b4780bcc,0x26da584c7cd185924a3cbd02d73d18c16779709d7bf36008f5484bdf15a59d50,(-0xc03cfc7c8b0c361c5a764b920c0d0d7e6112b0e3952f4a11600c864b4ad6625),0xa557a03d73b3615cb83105db4204560c3a09f8bfe49d8ce838b910617932b83,(-0x269a77cdeb74f489176868c610fbda5ee8307ac63822581ce7a178a76f19136));
(false,0x24c86fe95dc383e72855d98cee77f0f737dcd6ad38163a2fd6e7de38ce8d196b,0x38910ae18d186ef1af2b0cbd9aadfee43987c7407bdc6379898eb09ab36074e,0x1d7eb70d17ae4ddcfcba049c7228c4b7afc2a7931ec8f023b89617d81ee81811,(-0x14c0ba7fd845262c0d42e7cc6635bdc442596a0a9c662c6753400896bcbc4ab5),0x1bf57fb2721e5f0aaed95a5b399e0c5b7452cd99317a91569a64dbbeb6b5ff9e,0x1210c8414e848707a1ca2fc080d9b244a3cb8b219a0060d36911894d89e07949);
(true,0x2c7ff203f07e7841e5f499617dbf6f89a00ec6330d6b54408f6ed1e3ab846a0c,0x2eefe84899842a680ec401e3a5527169a5f6582e388cb469bcb24e0dd3c359e5,0x1e48e53b6f75a0324a5bca30d05a413c8c8250f9381c112ad832bffc339d2be8,0x35787e09d8badfe25a4fcef3efcc0f859b71f0d35c16c9f598f1b7c585e0424c,0x28ebb81c1c6ec86520bb04af0f4d9400b94bf2fb76a54b4442a79425561e880f,(-0x27e939754181f17bae005bacf1d19e030c028e474a9b0e64fbc314cc0033a90d));
(false,0x1d5d68df537e6b032dd5e1d9295baf28043f4d0fb9b8b408e3ed403709f1c8ac,0x4724821e6c85e10e89696e94c8144f46e4ed59a0b1a19adfba4689addc94112,0x1d0ef2c4b2636946acd63bbd659b0b2f13df3bb35e5dfe8ddb6a814f3a3fdd78,(-0x1c7b6eacc65603fced411a23ab0a3b87df5b1d8e8f48265b3a1e8d5017c08074),0x11d1ad378df16fa7a58786f0db5f7993ac85ee68b8826a6d7a5e416057989898,0x19c8b4b7352e4527ba5dbb3fb01325121e0b9d5ba83de60950a0c2b943337c64);
(true,0x13969f1e33e6da89a8fa0e611a19e08fe7dc5377e2f3b8c870c9075cba9878fc,0x6267c6d61ad4a86f6a873cb444e12548d70da59d3ed830191756048f98f5cd6,0x517afc63562539e6451dace105a5c9117d5276056944e3f84a78e9eb7b48afc,0x164c9b3a9936aea38225896373b24d7eb533b2d00a6289a9f330d60e33721474,0x7edda208a4fc5665f8cf60af621bdb6e6a77e9d50c09de7b8fd9d18bf4b5916,(-0xb091d6e39ee0a2c781561f75bef8f26d26cff4ce65dfe2b97048994a5b9d64));
(false,0x399a82d59b68b0c981c044471c26e73b87aa2887192d39e7557f5cdac7bd581,0x28a6098ac1a2a051fb93da87cdf683bd315f42f4499ce0d3ecb60dce8cfafd91,0x137ab0c57e275348cf1bd8d680062e7ecf5602ac60675ecf8e76684b7ba07f73,(-0x75233726b0fdca2f5a817fe544cb674933cc370ca3d5dcde09e00eda5c9c85),0x44919dffaa1c07ebd242e0f79f8ec2d6cf2497f9c466649842c2e43d7b9099,(-0x2910b39707f181079cc3d886557466a255f1e35a42c69afa459b60787259faa));
(true,0x2689f8c1cbb0a329cbea0a477e49e8aff8be093b663a5658a7c63d59308997bb,0x17aa5ac1e81b0d857086b6d65567f7e744b9a70adf39958dcac48167a6f1225f,0x1675c13a98e8ccfb20392402a31540891c246bd12ded02c5d2ac95aed15cef4b,(-0x47681ef7002b8e7625ac607c64627ca1547ed4dae1ae3a6b13edfa1f0b29e861),0x1eb1331ff3712662e3211fdfba30c4333499a8ccac2cd8df5235ca4c9f2d0518,0xd8677d0f7b31fb88493033cd4acec31d6136c37546ae617f0652ccdba422cc8);
(false,0x7426d4ee336adbefa7096989f9d2510c894f8e6656e188f518f383c0c4e9dc3,0x1986a28b449ff104422e29f3b30bd9d3307a65727b2a5364f11a26dff4e5dce3,0x1430d5bfcbcce45dd82f6b428b4dcd8fdb23182e56f12b5903cd460f2323a6de,(-0x38cd779dee17f72d5598a042b40dbc2964a8dae001b64daa33b31ed4d470b7b),0x116ca8c4b79584c1bdd328de7c1523bbad42c907eb7941107f88bcb9035c346,(-0x4772f31939e63e291d9874b1162731ad86d2a9e320ec1c86210696c0859cb5));
(true,0xa570d3f82fc2fabe304fbd609345c8e6dfebae0f64586c502d7996fedb5c229,0x1bc15629ec3d6f0ccad5368a73e4d10906326d33b484a443faf62b34fc1d2600,0xc27cbeea7627fa87b9dbbf28d0386caea9665d2e5281e1dc17c00966dc5c1eb,(-0x1fc3dcfeed0c768311b375baf8e3e1590449f4afb2c2c70daa3e07ee91dee8bf),0x2359ac6536eb8284668f89ff42b38dfe40256bab46bcaa09f4fa375d5534acb,(-0x79f19ad1ec860847b055d4e34c9320202e30ed111e0891fb0a250408ad186e));
(true,0x4d3096d6b58e42ddd2eacd4ea922c2e8e8da2fe8cff920b905154a60e38a351,0x1978038b94cfefcc6f9ca7d0b1f7ac6e0f35f95f4b903bcdad5680eaebcd54bb,0xb207213572b3c63407d397f5e74350b29cf188a301ad510e867d81cba81ef50,(-0x2d5562601e267f594a1237fb1b74c9ce51bba70ccc630118af958e97ae06074a),0x7b201e5105ecb14b396a2daba2b6929e4602cd5d26c708d82feb1233989ee6,0x3a5a5faf3ec698986b4aecfa8746d64f2ac5941c78c1300ff7b3060050749a);
(true,0x1f0d4dfa53bf3e331e7e21f88e30fcfc5c0ed7c24d94a7d328c5cc89e680ec0f,0xa6fd15b59b8ecc579564d16da5764c9f90d7281282ec64865ffd53c85d98b3d,0x2e0a7659c281c8ebed91a551aae57fb4017ed48d6dd323164caa172732e53042,(-0x19eef4abae90cf562abbb4d37db4f578465d565565c706c7df07280e9826366b),0x13ece4fb0de23111edbe716b327dee9780605f2ae4e8b0d5dd6fe8be5f37742e,0x9a54d92f7e4b1820385b4e29bae4c03149888b0096c9e8446e50077bca1d6d0);
(true,0x20ba5a2afa0cc18c44b8fb374f3dd2a0021c8a9430662c8dc0f997ac7a6e6b0f,0xcdea697df5618419fcb6c352b8a365405c4a2945e458dd2b0f0f7c2c68cea04,0x178a1ee398cf519e230598225bf9a642ceb28ec5ed214b9b44955b6d48ef2437,0x3785ec4b67773ba4abbd433a5343b3ede8ac5e824c95c978810a2f2dcc7aee21,0x16225feac564fb23dbc6c6e529076a6fa63371ab0338ab9640753200d7698a63,(-0x1a53a9f6597b79bef9892d47540ab49b4c8ce340348a9d3c79703b8ee760f22));
(true,0x14c2ff50bddb4c45e9386c1cfb8d4fdd522d9022715fe60fda054503fbba792,0x2e17959af0305b5c4401ec59e2c98c0ae86323901405abd8ccb82bedea8ff1,0x446797f253aa4e410d831edd39057f59331daea9de48d2791f0b394aee46a2f,(-0x901721f1843d6600bf10a3521f75abbcc2ec672d6f2f1bbf8712a630282df74),0x8e84fb8cf7bc020b349170286c1aa3f2c29408ecd9115052b71ef4df76b4b,0x571bd7c4ca40089165aacea8a8706cb2e4b62b87f416533f738fa0f6673570);
(true,0x2f24862b88a4c82f96cd07b6f066148015f40507d9c6187bc4bd3a600a23e5a5,0x92aa573701a187bbf20d3f930a70b34dcc3d8b03311bcac3769a698437bf88b,0x2ae6cf56f5f2f07d8c7fbf0b5ffcf3069716398023fdd1e2cbd44b71fe810144,0x853ee4bf5b52f3d023d34e4403f56574643868824f2129f836ac920eeb993f3,0x2decff12de75e431c85e007def04086a5a184d4a93fe18be956073981dcd83ec,(-0x8c12b5e4594ae71946586080f502c76189d534b1a433ead6dea6a0387bd98b5));
(true,0x110d2170398e31d66eb05ec6054855e76cf1dd12cc232b039926bb78d6eeaa7e,0x2b42caf11468c4134c5a87f69048dabf8a0e61bdb550d80e6f089d42f50446fc,0x18f0a646b87e4beb2fa514699c0dfbb0bbf9a67a5e6c6be6690e028d73b4a6e2,0x19063f4780ab11c4122266543e905b278d71af897cef1fb16ae502459c7cbc85,0x60217c3bd4903aebd12bf41582f5ba967933ce6fdce180a4bb46f2fbfd75df2,(-0xc0370c45bb16a6580586323c03e6f9e90b6d3ae058af25eb072e9b6fa714dc4));
(false,0xb21d950a9ea8722a1a84c18af63490d7281f3ec7b24ae9355e1831b3909f30,0x239e9069c9072d5576354a47190c1130bd35d9279de4fdf3662295f8de37eb2f,0xbcb6abd567c7bb8615c579cea5a3b6b6e9bbdee13b733032685724f187b2dde,(-0x9f3af03ad83aee8c5f030d96afa4747638ebd5e9144ea2bd94380db59db45a),0x28f96cf4eaaff25747bb099215dd89e0c61adf89c5470fa48be5205c076d4,0x1c20481a929d665fcf9180845835a29eae98fb524e66de7b1fe41ca175b4b0);
(true,0x1eb66c20005c21464d52ea36edbd6f57279650af589be096717ecad5e16e1ef3,0x1d7acdd230238a391606e2f912cb0dcf16a37efcc2bb9f7e6edb25cb45fba91b,0x2f529024f73ba1d36f7e9af7fa6f2545522790d4c468011b1024e8fb533d13bb,(-0x3faedb0c9af478c01b80c9675216c75e6a412a956afa1a0769b9f6532f62dc6f),0x137e00bfeee7cc600440079afc80e2fe1d63c3f43be333a48e0e2a59c0265b30,0x3e58a76566f5d0c2d402b5c5b933e6c4466c4c745f1802c5a76032a4dd0cf63);
(true,0x1918b5d5619d670f9c90d3b3bc6bbe3abb811ccce7612dc9254651ab115bd09,0x2a93d81482a828fd32d1b7bd751c141a99915c560ddd584f1a71f373a3b871b,0x1d7860a48ca7fbb60f6eff8417f352258ce3232756e2a8c2e36d011cda676475,(-0x32ceeaea7fed8b514bb0a90296eb4c88ca6e1abfa366a2016e1c66733dd87965),0xd03ecaed8a11f01a95bfb40f770a5187c3b0dbadc0d222a20a9553add7100,0xde88e5164ddb83354ef6c1d5f6107ad1433f22010764466bfbcf6adf36b9d0);
(false,0x252a1cd3cdf30011ffb8f1dc8d1deebe71e0f9453f7c2317a8c0ee7b2e845eed,0xbd2a929c5665d3274db70c0c5c2347b274f35c231a91b5f790b851469b6f4,0x13400e6ce4461fbf313ac7cdf0ed8d18be98c172ee24a6035b761b68f8ac67e3,(-0x20b2fc7fd8cb7fd8470fff95f7b4b0ec8b20377446f1fd7e482505251f761c9),0x1c8ac1aa74342938244d90cd3feaaf43322e2f5812063c7a4a85d5b274f5a959,0x2021b54f0ecfded5ab82a15e8275a7366b8b6b812954327476a417dc0b439c3);
(true,0x2b5494390b406e2f4ece1d9905cdae52fd95db2241e2ad5f81745f4a44df4680,0x685b400ca3d7e1f15f0911e5f5b3f7eccdb430090d6bb3db6653486f64d7fe3,0x1a27f146265647707cbad8b0c0b2dc60aa88258d3328052813dec3b5c9e8e372,0x2279335a169f302c0c9bb326e2e16efc2fae8a3ee03e2278b3588e0465fa7d50,0x26cc6012fbc52ff8c4ad79b4492ce62e2c7bb3b65946a6b328672c1e17495235,(-0x5cc7a59f46c57cefabe8f333eece5fdfc2c79ea2dcc825341052e5ed19c1cd5));
(false,0x21763eae015e3c973dcabcc96648b7c569bd95729793f5082ba64a2bb2a42b04,0x1dd356f0ddf7f3d64a197ff967dfb3d6d6374c8db62ba483408aa6c87299942a,0xa500c8da1ba8003a31da524a9711640661c8c3330d8c46fc2b8ffeb710faa06,(-0x482903e97a25ca8b66b5d5feb0a1793b89f729d0a7e1984f0d9a945c6cf3942),0x17235f4c5b6c56a8486bb05cd2d77a4f796fd75f0569e2b56f2996396b734402,(-0x101d1ba9896d889b4cca36afebc8886e9cb33c37a2256016a30f78748f0ccb94));
(true,0x1e3153eb06569a820de709291937f680bb034df908e27cbe8028a05ca8ecf182,0x12b805cd7751d39770e510a9138ec24a9494166144279e0182af61f8b30de36c,0x1dc30a201353d247093f63d58084ea5b3c6b085c8af9a7b69fc682ea01245856,(-0x2a4766fbcb76169330f0d17fa0cea3e839190bef0158e8729c9505e91ac5ca94),0x12d67df1ab3663a049c96026feced670b453d939fe5c73e44a8fca837344fa44,0x6ee0182bf2eb11637e8fc8f9b9f1fb36108e64e6b046c9fc90b0e49f3469c20);
(true,0x2e7c5e7e2428bd30261b44382591ddf841b28c31a62642186e55cd6bf6a3e052,0x18c6b9307265ad650acbd1362d10ff556648d066f7513721b91a5afff1a2d5e7,0x4e98db22163ff54199b647fb090239928f11a8b269403c54fb9c6560cc130db,0x2374f911da2c7bb548547b567607ae30c0e0684d791147399f5ba302da60f668,0x2ca7a66f54fc4f13ebdde8e21493c039299db882ba9464e518e70b93fd3cfd85,(-0x5d19f969b2f83dc299317ca54ad1ae117a3565db72af34935fe49937417d497));
(false,0x10bfa584607f1c4fe045fb184d4310521338d17f566c1d5fe2db803b16a3ddfe,0xfa529cf804db5090bf2f84a66af46f77222cee0c88b8d1f4492ee6e6ca0f80,0x280461cc3c72c73a1d35f54b6503ba73be2fc4603525d16299206133d9d13a5e,(-0x8933e7a87ba9f7ad694f634a146a2d593428b817d71fdaf59d06ed90d27be85),0x5cbf91a18751e0220271aa6150d5a6cd6c0bbfd037a7b98aaaa88330187a29c,0x83c9b355edd2d9bca697781a805e0bd97a6af1562a34d1e2e3d8f27bd5e59f9);
(true,0x25cf75bf4e894858e8ee718333db70a1afb44a0f379e06d0d88152f71e02588d,0x1c399562f870fee2f11d9c927bf29ad05ff217c46563cfb0e9ca9fadc4c09d8e,0x15e8440818c4641dbdca5df1d6f3ae4afbce9a8e152c93a17327fc53da971330,0x3e797c0611abee3fdb85b0b54bf03f88cfcb7eaf44cd2b729c7354fa15422b8c,0x1d8aef1fa6313d272151c3ffaa1263b9b355ca79bd827c1a1b9650d6aa80811b,(-0x154a0a147292a4084ac382cbd1d408f311df0ad52b276de4c50781d5b6255b44));
(true,0x285c57642e2618690ce66ec1ba049887b6b1321cffe7d151e575a9348d393b59,0x1b2dbb65394723424196f1c8e816de52f3de61c54f9efd0d0cfb907a43660237,0x1bdd2433e30aeab6acf4181202f1be7597466f4349601958569cb81f750a4e7f,(-0xcd81cb1800aadca7c4f7d0e275e708e955c12cff721d32733c9ec7426a2f8ec),0x21a995a55a5cf057cc462afe3ba1dea4df73e7dbb16429023216979f987ce79e,0xdf661b1abbdf1013cecac9d7cb2cb59e86f524ac26999225053c350c0aac90);
(false,0x4263aa589b6d0ca5be092b5de2d3de3d0c370ff458a3767b5394622f7a89cd2,0x9384392a862dc98c0c86b477bed3e1ecde2d65acecedb8851e1414e6349f16b,0xffd36e88ad241df032438d4e5a78891e937935cd4ea52a60c8db6b41c87870d,(-0x25496543aeedea6e4da7859f0aae143bf0c2460f8488047e58e64269dab90f9),0x5b148e60b32e31170fa19cab7ca1202a0d7be2240c6323f815f420d900a8a1,0x18a3523f7761622c19b0d71613f2e57f24ed67656081a76455c279ff99041cc);
(true,0x11421e21325ace92c5a5f15123e3526ff5815a88375d49614a2abd24252cb178,0x208e279a3f95656309ee18334afc84d461dd1a5c463e8ffb753d3af2f967ccab,0xea4fa70cff83ddb000dc72850827b419784481a92cda26ff0ca574b018c15dd,0x62284d3bc5d59dfa102acbc6032b25145c94e512cb7e0f668d43cb9a834ae05,0x627a91061f13fc3e893eb7b4d1f03084646d27c4e3fbb0ced186d6a5c4b78bf,(-0x852815a92cffca822e878f3ab50fa1d88594b06f56cc7a6aff18aa8afa9a2ea));
(true,0x21bac75af98d601e80d593f6bc50399e2ba525dc57da05abc9f7d0e353c6a80,0x185888d2f40e67df5017438888ef75e62612899a04e0eb4e72a4d8e4a0aea782,0x2d2e67b5cf7bb2abd05d672951d286647e5d633daee1f6bb6b326d3acac9d244,(-0x406d9d602a6e2b2630cad1b5235d8858ae82e49b7c5d33a036572a6651e80dab),0x178287e1dc7f79d65beec14fd2508451887e8d027fc9c76a439e6304cfff28,0x5b8d9e8c0cf3eaefe67bb9f4042e61ffe673869f4a92b804d501315c3ba65f);
(false,0x2cfc21473b76653a8cb7a38ca619d86cab0cb1c677b81a5d67712fde44f4e434,0x24b253167a4a8679a4ac7ecf5a55c8334a76ea0d10e4f0aa6a15fbb8e159ea6b,0xb50870cf73d63633fcc9e7368c33d41308196500f1ea92396881dbc110f27ab,(-0x16a1be7c2fd35ff435af2757d707307029604729e91d63f3e7165c7493123f1c),0x29d15b891d8ac07e324f0eb1eafd6d3fc57cc4c09195453f94bc0af40c8418a2,(-0xb7b30a0357f0334e4444f962bc0eb9f858a2cd9ed7a38db0e800d54604e1543));
(true,0x2c47910815ac6b390c0f26ad6ed10a7489ca88c82fe065abf7a9ea607e15ff32,0x1fec2701e538ac9b439af904a9668d5afa78efd0885e005c1d20500cbd97111,0x7a77d7f908984c643523cd272ea03621a98df36ff17fd4088a9c8cd20d7aecc,(-0x3ec6ff55ae109ed414551b4005fea8c16aff4f258b520ae18750ae4d0029315f),0x28844971f8ce6f6048b97f1477df116ef97af035755fddb626f84360560b5fdd,0x1fc0a7217e61bf38db59a7eb9f2d4d4dc791cbc9cc0c2e8fcff016480a73831d);
(true,0x21b2e04a84bb48d7f2047109dfd123c87b975fcb37fafe60e97e0feb862e6b28,0x20627f1ef97da8bd051619f6cd8d9f7ae388798f95fca2acb36e45ec64ed441e,0x2489837dd76cbd1142a3d1fdb01c8b50a19f299cb7ef86d010c4ae52c8a29660,0xa69e54dd16336f7a1615d1ac606db7adc6d0b2457eee545f0a653b33c8f1e5d,0x177784faa062d3a16e0686a84fb9c03937622ca0c61816480dcd211a929a5000,(-0x15299856416e493c4b98cb2bd38f6679fbbfbc75a94128636f2cf7b6181fae34));
(true,0x17b1c5e423b621ced6fc924fc12285a9c3d7f36a5de5d5b89b23696e8523bb4f,0x95ccab486dbe901fe5e5f90e815201e42d1d86fba9044b78e8ea08e8450f33a,0x16873c56a800c6c5ba68b4243dd0dd4a5e0e7fa8a90a39b8cf1a694813cb9e7,(-0x1d3cd588f579757a26d255d813bcc14d1c5b265de64ac387b9120ea66abacb4c),0xb9a06dce8fad083413e2dc03ad4c56c486ae89c95c6b3e4b50688ac387b06eb,0xb45c69c5274045d1f472e6fc7ad5fbc1584b1fd110bcf444eae6d7e08a03215);
(false,0xd5729d29aa7db528f1b1c1784db4321e8cdb21538f1175928bb5c33144aff5e,0x216a2ddf5733874ba580fe116e50d3f1582af03f76d380ecee2af93aabfa6074,0x1abb979e07650739106f8db307e55e944a6a18dc4959721ab205ecac3a08b419,(-0x294bd26b0febea9e98c26f11ad568e249a69297660c7339243c9a932b7b8333),0x3ad7ad733c35431004838eee35b374df9b9338fe846fdec3d36589370c912d5,(-0x6a1723ac5863afe82ccc4619c5b17d59a200f6758205c5f00c31d0dea0c4f4c));
(true,0x1c2b5966fe8fad86a9b2e3b879e3d054e18b52af6703346ee73722db99fec090,0x150787fa86179627603913df6aab9e56abe14526515f721eb80e6915e7703f5,0x6df1994bc38a13ec7dc4cec1ce319b5d13ff56537e45a9f675bd3960ddde5a5,(-0x2618a7a6b2a7fe7042cd0b467dbabae49e1847799797283ad5475b9be1298190),0x1065cb3f8ffa717e473cac799e17e532a2745bcc83a21c348c90a28e482c8c23,0x12af9ae7610ae7d600365d1d6e618c2b26f555e1fd1e414419644851a45eadb2);
(true,0x17e7dd557142cd09cf6f9fa7d1f4a3b9f87d74b134242b3bea9a5b01d4dc2347,0x194635d9b740824761c81d467f77a4e83ecff0a116a6d1182942df55fc4d3924,0x3f1e79a6df876660f006ba2522609cbde0170359da658ec18fd4202328a4d58,0x6ae96214ef45d52e9031ea99261ede69fb20ee27dd49c578860f07e3bf7861b,0xbcf3bc40276fca1d2f84be1f03b880c8a202c245c11693c0329f25db5a93ca3,(-0xbd6167971309be2795a0ee3882e8d46659f38a4eaec4db9a1f54c8c507a6006));
(true,0x26bc501d732dac0d4279eaae40c0671fa19ab08e0b515b3ce89c60d5732dbe42,0x3a73be1dc88d72be531c65041834025da929eca3def23a9e74a14f8daf7c548,0x19368372a8ea126003b4578fbf4675d7f7b842c0ac6509b4b8296f6b0fe46d5c,(-0x21491596edef01061548c1fac57529c718b535396d68c9e0ca5334804a2ca5d0),0x1f01965218e5a9e5c0035f810f51e61d2dfb6ac32f563f74eee5c9522907d174,0x114e8372a1b5005aca8e6dabe130bca7074982bc5272ee5cd50c9ee033426c04);
(true,0x2ed9f5aa179d00da8bc1bd90519d6376df5abfd0651236eacebf1f2b8dfb5a66,0xf500ee06bd2ab9401ebf8c91ec0838019c2731df6ed9351e5baeba624dfb143,0x11f2dc4409af4b2066b1524270e76775eefb6d53eb0731f7fae5e186380841f4,0x2ffe4af63e5680cbf54c69153cbabe13eb5472798458e6612d68292d566c2890,0x2d5c2a6d6a8efc6fcc18eb035640e3cb98cabf7211971e2cf4fe9183f520a4d1,(-0xb49cf8c29e1390c7fe338ddda29a17c28d8b538c67c94cf30451b4c0163f352));
(false,0x178f8c5b7799e0b159b3b5c00b29a8f4876f04d62c7b02a4b2986c7df41115e0,0x20bbc3ae645a3fe827c08a269f67246579fdecdfcc62cc62f2e616711af3697,0x1eadce3a5cafa96c3f0908d43ee433cfb64cd7c8845e3485cdaef92833bd674f,(-0x774935c4210cebf5d1c10907437877be74a07befca31a6fa1e7a1a514de68f8),0xb789b20452193585d1914b8c3cca63234d880d6b3d503c7f021ede8030f9c25,0x67595164a7ad594b65a1a96b886d3a1e143f718bc28337e43e79e853e21c93d);
(true,0x19f635953a8896f83342c21220e5769bb254c037e0246c2ebc2c0f4785b3200d,0x1d37f8fa7267fb020fcd54447ae193537b10460ce3b7b11a77a80b818cbdbacc,0x2526404dc18a04539e83d1aed87a947ed630982f3e159e92bfaf93681f72083e,0x20a88f487073019b1c08c8246994f86b935f00061155e60f892e2975254816d3,0xdeda0e39272f94b6cb2e174f72771677f2c51c47420f3fca144ace8981518af,(-0xe93f49f7954156931ad0e427f6de8d3f004393b6e63cee47ebe055f3d81c63e));
(true,0x1aa547132de7da08ded3ef46a4a827a5ad667e6e825619a5ba158e34e6069045,0x27bb9884e70940acba67efe4d2d0bbb3bab5d3f03709dfc3d946c53c909d97db,0x1a3fa4ce57f05aff9d1b02e4766afa0c6f6d0b543c4a53cfa7f00feca39edc91,(-0xc03f3d3bd5a66619017bca3c07625c01da759379ec9f101207e51c8a4e90644),0xeabf28f4cebd77ee19d94e027f7e9382265a5fb5cf52916acf64989c670a526,(-0x5ca1156a42d388e4fd890fccd6ac395aed2538ffae45b5d9fdf20670319e9da));
(false,0x2c8e79eaaac97fcd7a28c5f596f5fb4f4f7af52518b4d16ca41d6f1725e6a5e8,0x17ce9f5a8150a666501e08f76840701a9a2cb4dc50df48be80bd309ea564672a,0x2d1f8fbf526dd8a2c3e63eeb7d3a00d78adae2ad286a67fe0dc5d5fdebf4ad84,(-0x2495733863605d94f276df7194a86c0e68cbce6694d18f73d4f0aa9f202d6a2b),0x290675e91b7d5c7f076724b10ac291ab36ec8370e1933474ad03d4440262e33a,0xea9dabc6689e186c7599c07a42e3fb74242bdbc8b95ee69384e59d9fca8ab53);
(true,0xdf47fd4156da7860f867fb2c4be6d46ce98d541e9644b8813ab7d9df8e972bb,0x91b1e782179f0b18b6d7d6b5a1d6f5d679fe53b25b669f6cc378e70fec3fd1f,0x10a995195048a154469bb8829fb89528d61cd9c4c2bfeaec52cb2a2fb220f64e,(-0x91ca228c35dacf597bb7094082f5c3ab40d4becec997f315b13f213b6e169d4),0x40639c65a17f20c86e736dfcdda91fe40eb2c81a1ae5da535c9277672444926,0x43d4e8c4901edf095d17f1ae1ccf1b9d762ca92af97a7ed93f95a902453b837);
(false,0x18c75cbafc32f8ff73f8581193fbef899cae7b1765ab5f4974f8743450e9a491,0x27c8391d659c2034fde9252461bf8fbe6c71716809eb14b9887f8d36cf7ab472,0x95c8f2a50011f36b492e05fa7cba716a2cba5065ef2415959de9bfc1a18b3e1,(-0x4a9a2e4fceb911b751a009241d78c519d0bf14bd69ca75620a8a6642b95c6dc),0xcb0152e9c831f3b3c2fc3502c5a333f7081ed2a4c211e1b31518c34bb7d688f,(-0xfb523346e971525e68a7c95000262dc524f5bc94fd6eec242a08a39fbb3ac32));
(true,0x196ff0abfc9b052882a12943b466c3054ef39dbafa421be7999f1338e33db387,0x6c321f1ee843bb37d998ca21c4950aae0445fda0d487c5251afd83493749dc3,0x1bd92edbd60a5bbe210381018aa53faacb5f2dc4d8691a0c051e873a7d611106,(-0x5845558af0daaa00378b080b7d39a427a4fb14ac13a404ca625c166996b52afe),0xd5f03f3ac2a26330aef9446f5d5c9eb0505de83818cf9962dcd148ee3d20a8a,0x115b62a5c23138ce132cbd2cb02dbbc5dad03d49d926a53cc6e32606064b8e62);
(true,0x169463e92c63a105df04f1cfad7ce8375c4ffd03cef4e0e38348697177b66ee1,0x2a04d11b3a1f7e4d661a057dc647b5a8acddb0771d4740673059a0ec99dc4e4c,0x1799d514c1adddd22f4211690acf8b832d280ef50fb04024934993121d4cc7cd,0x17273d5626d92d628b828134b893f74c7e43eef1369048eecfd8df9ec3f6ccf1,0xa892214f1c0539ef63113659f036b9e7a05cea92309d38e40e878b6352c97ef,(-0x10736394be6eed536d0b7ec2b4640b203b288536e914b1bfe6e4084eba10df3c));
(false,0x1abf77093817b23b63b102e1d011079df16eab71580a31966fd76eeb33596a3a,0xa53f994ed523f24a63ef72bd14519aa0753188c6e96ae3211f42ba315b48bc0,0x21d64b48068806f1da62b29ff89869666cc4be17759c0c3b28b743961d20be00,(-0x1739ae81f3f91c18c27ef8ba4b643391894c0429738e4024b0693cb6725a2a5d),0xec8d76e9137351d1b6905a9d4f39645756839c7bef4705860f918dfe4d73b17,0x118442d816be13685ae57f4d7667efb9a605e60bb47eef6ebb3d5e5363ce85eb);
(true,0x2a028acf250a85a050f149a80dccc360d62ad15a0d7480143d8a148a4f2bac9a,0x1d323607ede46908c8674b4f3d425419482ae6f01fea743a78bacf38279c173a,0xb3dc0c3bc50911117c6985631368f82dc3dbd161c519c10b7b3df9a3ad535b8,0x3422f537fd19b0b6498701d110c5f2e231d6bb44d46b08e47b9a663be7d66800,0x24783cf35234aba36d3eec320ce51a5e5bbecc2e9e0af225dc6c201ac9161dea,(-0x10613a0eaf56f414c13e31ff1a3e56c5150b4c97e9781d6f186845998273d31c));
(true,0x2bc88105c71ac6b74a1fd4b172f5c9568dc966ecb6f92393ca68a846b1847a06,0x2d59832341f9a4a55c14830fe427c85e565694aca5c6c23aabaee45190496f28,0x2580cb0a804872cfca9b2c68912f28b9e5d9d667321bebb633edea86635432ea,(-0x2080d23119535c19f0f5f5ba5d756c57a6eba7d12346e7e9d954ad46e77086cc),0x279d0f6b67ffe8083c52b1fce8740e72142915b5d59996a4176090d8fcd81a88,(-0xe9d799fbbdc61c975a323a5a6a271d4703e98be9f67f569999863e7f2d8e436));
(true,0x2d46a94982518c50d8d8adbdced8a6c0d6cfff91262ddcba474d8cffcc8022c9,0x173a306ab2b384dba54c16534e87f40461febedc2005d8128d4bf2ff38a5e55e,0x10b08d5a43122611849df9a8fd6df58caaeea1eecc51710fa2ce3b6659e9c492,(-0x3951c6d4c858a383879994f1ca479d1903699def0d2e3916427ddbdf4d7d074c),0x2a5c5fc19965ffc5460073b1f8f18aefa4b880b81814808a95c38904fc813e23,0x14b2add7c2498076b91be61f62efb428415233ea8686dba7d146c88f87760c1e);
(true,0x8d2100adfd8120d15511b78ec71a7e481f630dbe3ae60a4253f1c37b67e359b,0x21dd5e1840162b4881614a02da27316c5b55e0f5c3224a15ec1ec5d3367d0363,0xf6f5a64e3e4542769d28178ded25656bd406ab5b8f18dda1f5cf59504ad7b58,(-0x1b5cadea6ac37fd16e291f9c4699ba3cbc777821604ada0e411d0fc305d76ec0),0x19b95e1c184f5ec709c9586c9955d3ec32af876a4d8d2341995918d2c04bdba,(-0x1f05d259d543199c0d9c83a126a33993cd365f6ac3215bafd26fc39fd8375f1));
(true,0x2798a7dc243e0b70529176a3a4834b74921f72ab745454b608b162526fe46060,0x1df1477a158aa03c064e2fe5f53b4b5594ea16df3aa6c17bb3c4be7eb212a2a3,0x20ec8218de04997b5623af10a0e5824562ab79a2a07abbc2893961f1695324f3,(-0x2dd631a2344d2828d6df863d7e6746025e7c1c41a2c1b26655747c3644cde6db),0x2066419d656a68fcbb888938854c5c00751765f880bbf4a315542007603b7a97,0x33596d1368c8950ad767147751cc672842fbd8e4f10a702143932dbd92ba7b5);
(false,0x2ffe862a0b2f801589aa1ff1c9a881ff432d476e843db42f67a4222c4afad53c,0xcf81f06a67234073b2054481a2af49925949cc5bb840adc11748530861fc20d,0x28d4d5ee4775c251a54e2d002ac9124126cba9bf427f497a76b8c1b8e79a5416,(-0x1db24d1ec1e7bf0fcc190bcb8b37e6c6f156cd327e3395ec1366d8d40cceea31),0x2f9993f54e51545bbdaf9f178fa03990270122699b5fc16d6d01e426929a815f,0x10d5754b53b4a5b3383ec8414d3eb7e295d9b5e11cb4ee68bea45db1af57f81f);
(true,0x18b9436dc063247cfe1c6bbe3047332dd64a92538f0290d07243a6337cc7cf2e,0x257af5a7ffb5548a028b06ab1c2713466bd68debf3635fdaf977a69ac74ec7b6,0xf74f8888a10b87dcb689dedf35803f603de8430e75fdba1e056c6d7846de591,0x1f4b6ab1cda1e72adcaacdc1dcc2debb9f3ca2ac2901a9a2fd25101f1eecaded,0xca1a90b7207ae0490b32ec064ea7a22a0038d76478802a12781faf7bda12074,(-0xc85dab0cfb8554426e4a57b076dfc2effb038a51e0cd5d3a7a04bbfba6de505));
(false,0x10c578aa4897e9d6445d31c16485aa68b82f62709b125d539e17d53dd47b50dd,0x257c97a43259475358e4853007d116e241c4c6ab098607c9b8f2359a0d3f8e84,0x775209cb311da97a4d806e56df3058976d9a8485bfb90aa5917ddfc00d87ca9,(-0xcfd5e568f61275d3e1272c74088df32651cf5c80042be5155b12757433338dc),0x5d001fd19a9bc6af745d5ac0775461537e38bcf14f38e21db3db8e2e15a888e,(-0x90dcedac4845907339593b6415aa0a5502f1d8c47168810a6657413c6210));
(true,0x1f1030bfa2190ee4f0c0957c0be479160094305b2e95d0ca4e9fce0b3292188c,0x2572c71d69d43d86fa3c92ac265a9a5f2b0fc4578bee13700d091a23d931b9f2,0x813f32bed2e0861d44dc8005803c8c6bd15b0e84adcf24eb5545160f7716424,(-0x4d8affdfa7f1eab6149147e30c7cc0e2462fc23a2e8ec3adb55e3d985c001358),0x13f099423bf85fcabd4c11295eb68bf5d8bec796f455e60f11715e481e59b596,0x64cd185ba0b4e5a9ebed854120cf27026faf92973509855b8336b3a780f0b);
(false,0x1b43a4323f8dd9f2f17db73a483dccb2121b81b26cf5048faad3448eec3cde13,0x5de7606ff764c799c23d142eee4d4f05c81ca6244efe50f0d01a4016a81fce4,0x1710d8f19db3d985dcdc565da11b10003ba266977dfc31a6595bba995af107bd,(-0x15193e929ff2beef58fcbb1abffb60e5397ec009ee8b83297e7106f139398deb),0xf5c5e8008606fa217e6e900aca3cdc4c8d3088827795a5655d9ac5bbdd93e92,0x11cabfdb2f13a9f54dac3886411336c3c44236c61fb141ccd3bef51c11e2c029);
(true,0xd4ac2725386685bd317f356a3c7b662342e0497148536b54e0dec45a8e44370,0xefcadad57caf0cec6f90200493e106a545adee33b908266f8172318437bb529,0x2557dc5188eb5c929b1a97313a3811058a4bdec97245efd7d513a06058a53ada,0xa892bda0084629377d78614bb3bc40f7927a8f09c33e8c01e307aeb9eceb230,0x3a6a74485f2e83d4b0f9e261d7d0fec785ecb6e6c1c58000c7609c508c4220f,(-0x28126c4b9984cc78fa7c5f5d963b6778c158be1b44a7330c96392a0d184efc7));
(true,0x176e3fecbceb1b34d800f2ffb0663e7f5a081700960c4f58121ab1d911c663b2,0x2a7f8879e7fd6b8824c4e9fdd12aad7ac240bd9d7373c0a6a3419b538e4f58b0,0x2ffad991dc93a4e0fb9e261dd75b1e4fecda85a339057720aa010d01f7262b34,0x163cd537c3dca06d52d894464b34e9675d470d5fec01a52b47863d193bb77175,0xb58456262a42f46c0d229b5167b84595433bc7e169e4a5ad1f995600ce464c2,(-0xd520df88ad5746cb6fa9bfce2824b305c883f240a60b28275fb3f06609a4eec));
(true,0x1a03ae2de2b5e0dca304eef6037d9759f1dad6fcfbd1e9618c5279bb45e02fe9,0x1228618c71b8e59dd4b21d3a75de201da2fdb560ab9f24c78a72ace25e056523,0x180159fd7fa5987fee28b85364929e409218ab80706ffc2bf2e6b9da20042c9,(-0x3c618fd621ac73d12071da56eb03350d7378c0199c60e8c0d28cc8f547b4ae58),0xdfc18eae928ba0f1049b2571110b87454ce76ad6a527e5c87ed9ba4e0134b8e,0xd15bade50de1a31c59e1bed255a53f0d5968605a1535e5bf42217c18a3f2058);
(true,0x29bf3ef20c476759e9c922e265a78c15515fb0bbb74bdc8d547e74b35ba59cd6,0x2959164072052d8026ca0fbe0ebecf32b34f85cd0777246ee63be04fbc304a60,0x112b2f6809b94de6459798d12e149aee498014941de304a5e10921c4095ed3bd,(-0x11d9da26581abdc59efc3177ba08122beeaee8d08f9b296470f242833709484f),0x2403c2d097731001397c96b3a9f05d72d82cafe1f748cadbbe1586df17b66e3e,(-0x140186b1ad8d3371f9b9a1f4ad332b97467446cc872e59d11b0900e2363ce384));
(false,0x1aabb1e7ca2c683a1bf5a4604ff1840e339a364c7fa428596a54b1ccd733dff9,0x1f68004197a7fa61aba3815ed7e33b3e77b6e25a3acfd7bf7de24370dbb3aba2,0x1cf6770b614a39ed79a2746c0d50ff26853d54a6a262f0ca88d5557cbf1f1a3e,(-0x16c9de34d96a81087dbf101febbbc70a309ad5ffb2e799b9131999038e8e6ad6),0xeb30491a79217d703897d7fd6579431bd04198c6a2cbbad13c4c3d98745ca2e,0x57ab30d39c5e0d7d6fbf45986704cbecbf762342e3cb37dc3d2315280d9fad3);
(true,0xda9aaed3e1cff6e9e195bacd451c1b213eecc4e7a6a2e93d618892babcfe822,0x274834735e3108ff7dd7018df5aa3ea923b2710d2d94542dadd876fbac9ce38e,0xa417919c4e19ec7b4ee93d98839451fe9aaaf8b63e83cc0a3d4f0408e0ccd2e,(-0x2ccb1e5b1fc8310aa677cbbfcf4cc96a10a21bfe374433036daf0728c2c21f14),0x3db84aec9b07c505e3cb178ac6ed26a198f426720027403bafbac38617569b2,(-0x2393f554572d630f4fc32dd32dab6e0736a9c35fb0fc08b3ad3af0f82a734c4));
(false,0x2eee3f940dac48d51e429ad0685b11c5b7f1b803ac47b43b9fc8bb2ced14695a,0x4e11c1f42c9904a41ba70b7b012a643e0e07640ddc8f1743aadf6c6d78f54be,0x2e26136b2d2209aba5d5ceedb0bfae4360aa7aed8209529204c84ebdbdaff828,(-0x26189035b303d11548c1e6433b07c4fc9299a3a42034ee65843430644cb32e90),0x2d837c1820e3b7b181986f9888be521574e20f2beb61055041a46c48313ebb57,0x215d2b6e4225d364cd0f2fd8d29a8278273623ebb90066b9220ea63182dabfca);
(true,0x14ecb93651988a0cb467390a26714ea8d074eefa64c060158a564ee73a60371,0x2da9ef59d73dd76e475f03781645ef74e755b1c44347f25073d3ff50de6337d3,0x1eda3b70ba48407f4461fdabb5342560188410e509d842ef0c3882cbd5eb45b4,0x104b5fa6aa6f598b2ab74869726892e44e0c1977bb18910dac20774d4164c44,0x90c417b51e865a7c7fdc3976e2e2e84cb1a1e685ad6a9650a6cfe8f15f692,(-0x11a2a12398ea932c1b88179f642ccb09c4eb38cd224ec87ce7a21f6d169b921));
(false,0x23f2c21b312e9d69d51c01c4321742c75b22169e680b1dc27905840d64fd64d6,0x2ad6d0f8fdecb7debfa1b70ba540f53287bc16fd346470d10d835f9729c62404,0x1df11831c5e48f59c5d2e32feb22dc47fbd73e2a54d64d09d40f89eb1d4381f9,(-0x21ebf791db3ee8a70f8595ff415e47683f62b44389cb84935b6ee4a0c79c9304),0x1ab458c75c4fa718f666e50614502991f2187ee525c4b8e0299c99ec5e8a870c,0x2192cc0d0722fb60b898839731750d6daed3e1e7f2de8b2c96a2301a36fa35d);
(true,0x15970b7ba1360e18d49964151c4c2dc8e0d59c0b6479f5285eec5c1949ef0873,0xc024abb1c8a67f36062fa249b5933b23bba549239d6cb7bb518494765fffd04,0xc3209aec8b2fc9bc2f8a3a360fbca020ef9e2dda15ab9fbf609ee276ca2c62e,(-0x570dbc9fbc83826d6a04e95ae86efead2aa835aed5ace31abc9d9717760f0a7a),0x9a1e455474159395e07904405c671496abb0f29883d4f023e3dd62873751e9d,0xdc14040ac3141d152a5e1824d95e9234e6c77ab31c9a4d729469b5792553cd9);
(true,0x19830a3afcd18b8cba4ab1d10ddc2437bd5342630eba8d8753a53755162344a,0x14457d0ed7fbd041ecc66a8f8611894d7bc70fed2eaa3d7c6b01e27b69a0877d,0x281f4b4b700e2fd9d1be172332fbf3e9426eb0a60f679df35c2d98188cf2c81,(-0x82304267fcfde566d636f00c646915b36da5d63750359df81d6e1fd4a457598),0xd731fe78f6418d761595ab8dc8b7daa678edaed6a94abdf25cfaea1b5a3df,(-0x45b1e69ed113222b96761e75255308672cf3355836c75208667b27794c8da9));
(true,0x2395a6dac1182d936e6c8393cb027afffbc10b5b7c0c92c16af8f5070f2f936a,0x24d583d89c9a2e52690149c9ac05aaf39415c911d27a488aca24e72cc198fdd,0x871d4643e444a8b5f776c3ee3d570a48dcdff3d2fde73ef70fe138c286d64ed,(-0x15c98c7eb79e93f78f5a57d293e0f8b472e53ea2deb05883b5b4f6824bd43847),0x1a2ab77ae1557caa960adf53fac1345af4b5fd696d63693808fa148d1274490d,0xd36aebd1b8cd368fd50dcdcf1fa45dd803f91496e56ae2ffe664ca6ff36d6d2);
(false,0x27c0b78f869783d0757e383c96aae0e73646b928e95ca5ca1b008243957559d9,0x10bcc74ac382afd0add4c74f0e9927f987d8f7653d93b8485f30d02011bb7ae1,0xcf335022a36a5373ec7db672628d9fba98d3385758653cde0be25e0a5ed1f7d,(-0x1e4222cf234345ea20c70345831079d8d9a466f078cecd128a8d422ba0c2fbb),0x20a7f21ba9c06416a3f47ea531f2dd294872885dbd2b7c105b0953701c0d8f32,(-0xbdbb760d52017c4a1c695edf60d277affb53d6b6125c0ada1f93a2cbc231ece));
(true,0x127c1128dff779c5b61bd39e4d0c7ef4984520b41ac3933c3e2ab156e840c482,0x5c7186c1733a7521ed14315076b0a175bb9a82d5ca7b6481912c9cc1df005f3,0x1c32db052ca5c07bb18f0360813a35bd1f258cb633e2f57b66cc1809310ce5a8,(-0x7794a18bdf7caa9e5c7af57d12eec0243eb63b21adbde66f4a613bae9884a4f),0x70f8c48ea0b171fc190e72395357eb6b55f9de2efb6a3ecf7955a932670564f,0x42fb5efadbb1c35cf34aa6eefadd2721519e27d21e2fcd617dfba98175d93b7);
(true,0x285011ed3fa15ec3eff7591333f78fc908d737554bbee23f77f1e6e74580bbfe,0x14cc83a0be6ed1f1795aebf36a39df9c327ea2d6a1f2ee5e46607a6263a27ade,0x70938046245b33a62c4d1661af85e4ec97bf1ef2150ccbbfcf4421de2e3d78c,0x2ce989a484c8c29efc994813f69ea9b9d14231732b40f58228668b1613d0fb65,0x2195208b5b4ca460dc1ad5ec17657bcd98f53cd1d4c6c43ea94b5410d48a8940,(-0xc836c65618f318ca8ae5ff6382605321aa7cc2b09d307720154b71242e8675e));
(false,0x3013cdabaca472b6c81d03ccbeb716c40610f8d5a03a66277bfe70bf726d5306,0xecfa7773a434790c3890704457e33943330143f9454ddcded51690d9caa32f6,0x2caf01de7044be7542990356569d8dbe31dc02bccb875df1e9312afb22953c0e,(-0x14a9e9f112119261569b24291715485d9b23b15de3b54234b79e0d383d18d7ce),0x2fc3d2d08d8de52cede8c32d6dea4882f3f505ea1ac61006b3468ede15bc364f,0x5f2e62594d1a4b023b21fa5ddb92cb6d33a9b5af3ce21fb4d74acbf7170d3d6);
(true,0x28a37493e2672bdf0ca943d472f1276fb4cb07490f2638f389492de6c75cfad8,0x933c96772951c6cc407c6d192df6c2aebf93fd117d6175fb018428552ba90,0x1fef7ea6f2d9fafa2a6e24eb056b77fa446ab1f180f25e11789541b3ca8ec46a,0x3d7300a750285d1116c1ec414e110cce76e9374d5c3cbed29fd2dd776899a274,0x22209dda764d9e7d12badaaa8ae223d1a67992dc63fcf29ee60eff8f926375c4,0xc686db0375f0fd8cfbc002d280eff1c3f6319984c9badba8392be5c3ee53198);
(true,0x1f9f7ebe2230c87b200a2d0fa91b6fceebfdb2a1985ca8372302bfa4e8ed1dd6,0xd94e78a686642b3160331bff512dfc4439861a8dc902a869ac6600ad7bf8c0b,0x234477f10c65a07336f610f51f9a766dbfee98e2f73c8ba57ad1fadb9a07e77b,0x29bd00f672e84b24e2cfd59eba83e994ab044c6aea426ade442a0ae546d3b238,0x14aa3beba4e7e0782ef0571aea9f663d5cc60268a346e3364e1f363bcf512db9,(-0x8da11d7bc8a5155a37248d33813adb5afbaaeb1b7ffa25e5809f66b7627b7b7));
(false,0x25f456450a03936e61801742d6d9bbba0c2789f97e1267ecc5ef073fbc889889,0x2d0f5a4fc1012c78854789e0104e11d7ecb4bc97a7cbaf7d76ad71ce1dac0709,0xe0c2cafa37a015c57a63d75682156c2a9f1a1a09e05f0d2f9e3026631fcda14,(-0xaa6fd2f06796344bb81ea5122471a62304b17b9265f54b5a4f7f55d862f210b),0x1dc4abb636fd495e1898ba3e9cdf13fb6543bfb138744e43d9db98346f07663c,(-0x18b05d0cab66ad3e8e1051eb54036ca1a1d2a760bc2f41558828e7b04f89637d));
(true,0x1731bb6b0813beef7deae9916714ea07841c2ecdded9e3df86f41e5e8e343ad6,0xe15fe510e5e1945f583d504d253eb6a41871de9efdece500d9ac1a98f32ce55,0x5bdc3057bd05e6cbf19cb1e10df7090ee6dfc07889e74c4ece83163d6c27f05,(-0x7068137c2304348e6ca33dc0c76b4f0006a35436d8641eabd69b8a8bbd2ed183),0xb1df68b2589d4406c2a65838274b8a8f7f6978d0df74747e0025f7361eace7d,0xed88d7e46c65553e1aaf6ff1665bc180d051d497f3217e7482212a1d3fed55f);
(true,0x114e8cd39797cc4940b0a54661a4a8011e143c8c2f9886c1dca9afebff8db1f8,0x24da85f6a27aa3a4feae639506b9517809547821cdb9e078967501369a05ff0d,0x17caedc83efed16c6e8d7ccfbd98bb8cb4dc3f8637c2f90f30d6f321912fcc04,(-0x8319ca60a6a2ba1c646245032d80a28b2429da1d3d9443a7b61d6c76285b4fb),0x6308a632dbb173597b5cab54b8464088e3016e72face30edad2f7d46e7d4489,(-0x824837d382d36c224356967715b5a8bcc7e2b3a5aafb5b50d506e859690b549));
(true,0xd315928f33159d5955d5b06e4173faecad0c2f5f05df0ced9e11ed8cfe21bd4,0x2410bd4561ede164f2c63f349fa6827a5ba03d68440fe93f6ec7635f20f52066,0x45fab2e6543fdee1b73e4c0b82840dd62e68e7595def13361641252628c6694,(-0x4739fea12821c1f7aea93fa2ef9bb9f98228e41230dbed21b2f06fe13e93f55b),0x398beee454fcfcf9545910f9b303d390c44f5113b5c56527f1577faa8554910,0x3702d92f44abea6c5d2ccc5bb03b35cec6a6b3eec80704ca551f51ee25ccb4);
(true,0xb76ef730d70b556f4947162e6c6a0077f4d2d185d4cd1b2a169e1186144dd88,0x1dc8b00944a3b11d628a40c0f9a34d264ade27acd4b1f20f5886785ab9dadbf0,0x25a4d4bbdf496b271ccd78229693a5b692b96e6e894fe0d441edf0b69faa5d04,(-0x4e905cf15a627b0e95cb0f20a946b4e408f15bcb66096035d71305a6911874ac),0x2b7521745a884fe3dadfac76831029bd7e53a37d8e717b87222d036c42efb84,0x17cf7621c99c2c5b6c65dada73135104083d84b915fcff7224719fbd62f7918);
(false,0x229cb49edc1c93c0c6aff08e297790d6df322d9fd3349e96f40cd9d7ae85917b,0xde3702bee7985beccfaf213e3f01d9e25c1133a776b6ab66208c2d2589b0d85,0x280d931c252c5239f5f9f90c58037490ccf8e342ff6e9fbd7fc9ded3568cfb69,(-0x154d89fab96542e4f253bb96d8f78dc9daff9a2eb0fe13e8d60401a8aa79d4fd),0x18c199051a2eb385c9b1c13d47119dca8ea9431d18bf7c89cb6ce01ece04a7a3,0xb5e85477eb030eb6bf567354d74548e5fbbe192da1b1d801e25d8b19ef26ffc);
(true,0xee174b66927d434c25d458855c0cdf42de7ba7cc81ec66f4b906727da475b91,0x2826d74d677545bd7b87778640855d7d2308750d6d0fa43142e1e625d7500a6f,0x101323ae84ebf625e0a23caa993df48fd1a17ffe2a1b185eefd491fe6126cc3d,0xcacce81932021cb99018f2d0a066e738ae602902e8f74112e36cf648f611da7,0x4936c6fef8dcf58e7a5355630e711039b56d312f02067a43867f744d6a842a8,(-0x8137973e24494961ed054efb6a95476d8ac6ff2fd1804dd8e6212013b043630));
(false,0x131d2ebefab4bbb475c5c10e1b11787d853a8db9aa665b38883c273fc050501b,0x21e0841c5f601451d34a843faf299be64190eeee72ffff40b78b6f11a8b63cc2,0xd21392b6b65c5485d152f9b935d90e1ba41cc40ab892e49ac24dff7d998ce69,(-0xfdbfa40e96dcde89869990cecf3ab126a4adcf7882739839626b0d22c2bd489),0x78cba8f1a7e13c41346802a43999f7a73fa8c5caf883da9a6e1bd9b99ea9ba7,0x27a78fe5806c0c73609121f296e0eaef9f3a68f107d59bef989839555cf2699);
(true,0xa18964e20593184ffd57b6b07106f92c1a0dfaec79f95bbb33e9ebb7fbf5047,0x2be9d9d322de4fe9841c242cd8bf527f169d0bddf1e0570cb1fc15f5fd54fcc6,0xb2fd868591fc3d3a6d494901ee5a6240a19d72040a3b6bfcade89dd8f141b75,(-0x41ab3ebb49f273cd699784d113aa28db1ce16a0708257facba14039bb4586ace),0x21b39b9d17666b9322daba858bf4c661264242835fd12bfa240158a765cfd67,(-0x2180b1b38376936ae82c7bbdf80c2164e030985a84cfc4fd63da8615bb16afa));
(true,0x84827f257ca39ba007197fb86bba01953ded5ac25d39ad61c4277c4b79083fd,0x2252e4e28408dd0698b660850e29e90186da7e78f4c187e1e23888a87c5e3b55,0xaf693d2bcfaf576259c7adbfe8c7ed08b65b21140c9d9631d63839ae5511656,(-0x73b83acd0a9f8f87b5dc127168875fa71672b7f2e5d83398eed1764dbb1b382a),0x16ad8de96527264d70bf2b1c7539fdc12b8d7e32eea1a91a307fb2e7fa4b328,0x1a42540f8ebce86905a24645c404ed052834798d63ba48a0a4fcdecfb04cde2);
(false,0x29acf6a4e645cf71ec8a1144ebe03052241d05b3b94f766a4f6ab87f8c041678,0x2dd6a9212f7aa3f37173ffc0b3e0fb3f19bbe805fbe76dbdd0a932171e91120a,0x1a754d0d2a194cb74534f75a9b4eea13943192d02cb2cec3d3aabb23e55bfc7b,(-0x1d8f61e36408563ca287c3221cabd73fc9c8c14c43333d31d978977f3f831836),0x23e43e70b915e9e6c179ce184496181df2317fb3879ea73a29cd78225ac98ae0,(-0x9eaa738d837d6bbb820cf8fe62dc1ee208a23e70bdef2baab44b03317c945a9));
(true,0x77c5c868049610303a0cfb3c0e0a4c7bf7779eed6c8a8f36125fa8a99abd017,0x15b176c23fbef055e80379bc2bca7edfa6fa1d9cbff25f47c69a35bf86ffc37a,0xa1721770faba7f1a681affe169f4607d65113f2e39e4140863f8c75c5ced4ed,(-0x7a12f86829771763d0fc4db2676bb5c9639051b563954e0a2e9ef58976aafb12),0x12871b49831e863dbc13d6c45aa56998420096044494ace93d021d591bd7a83,0x3bc2d2cbf635d5c3b3c0569c4bcaa1b6853c109eeba501c338a68470ce83d88);
(true,0x1fa5df893cc1df934fe98354c4ee0fa4530d273460d87b8ee359641052ef782a,0x2ef3360dc34850f06e68080ae90128e466b963be1520c9bc17b58e147f8c0b94,0x2731d1ca7f946788aba28af16000cfd6a161394be12c1b4f5cd2bf6907753587,(-0xff9dd30a8bc30ef7bdd1594189fb07849d6584ecf3d919f380e387e78eb34a8),0x14b292c0b088ec390baf89f0785e4adf15ccc2d447c7c80fe96dd0beb147d45c,(-0x10848eae7bdc55bec6a983d8f8dfa36b0ee5b4a208f8f503e9a7488c7a5a0eb8));
(true,0xd96d39520be1beb71857d50ad0544505e8911dcd8f97870c0a4b3eca5c768e0,0x115ab0eec6ee4f46b4e089765d90c849bdad029054fe2c4987859c014a27ab6e,0x15831a66003e5291e954a802c9909a5a23fbc58212497c595fb9c3efe634539a,(-0x72a40977fcd7659327f6a7bd792a3c6b4646c79833f097e312f031b600b4cc70),0x3d0e868af48b7732610f1030153194e1611820785047f46b94aba294df7016a,0x84f9a6142731c1f307ad29246cf038158dd6ea08a6de22a34a566c3bcc4081f);
(false,0x1a2d8e5bca3c67813be40dfb1a1a17d1d747b7e4121fc71e445ae8d4d217b1a3,0x10be620a78d5bc135e04869e8c268a83680537880ecb6f81ffc5fd3fc7b974d7,0x2cc39a7574cd80358eff998b509ebee54fa7272acb2f64a067f6a00ac87331c8,(-0x9634f6cb5f7f375f375a153b3782ce853abb0ef04ab6a3a2b687ca4a19e56f9),0xe294304c770954d4799737a8c4e844616abc6b07b69fff39289fa73f0abad83,0x548e62609a14ddc4d7c1f4f5196252292793c5faa104f433aca8a486d4a3c3);
(true,0xa60c70e1ce27f382d4502f086f289711f4fca8f257226798b2f0d40f24cb625,0x2f6b4d5131f71f4f95bd1362ec0f5faa24076f7b2696aff0e767ffc70cd102a2,0x12969ec9d2311775bcb536ec17ff3b15d547cf88e1d8e2dcbeafbb27b988ddd6,0x1d1ec4aca7f66fc91fa56c097302638ab5dad636b70bc4f652a7d4c38a01e1d,0x239c4bd94fd76f1b4d6392a0cffac38ecc4fd96afcf0be04e437eb08f4cb509,(-0x694200d4f2f7861f386719ebfb2b3dbb17dc1d860a6376cdb98d8018b75dff5));
(false,0x1c4519e2bd5e66ab17091f335f04dc77a34f0cd0d612b90395f4cea44f601377,0x100eef1c5ebaaa1a3395a29510538fd85380addb96358515acc54b0c843842dd,0x265c3a723e4572d8dda2969ae511f00dce50040054f388a35b845751c68ba9a7,(-0x1bb3a2bd24a924a9a4bd12384bfce2a8085c281ea74c8b4ce9067883bc70752d),0x1083d40b7faa5394fdfdc5b1ea393f09cb5be6e821e5d12f0df0999f8bb19bd1,0x125213b58911a79e3943d3fe36f733a165b985da05e38fced4e83e126a083c16);
(true,0x2c3d6f83014e4f7e1b0858b875489e06e752fe60d4d067c079f081bc83090d9d,0x22f6db4c3bbf9cdc5b900c7074ecdf1989b2adfed0fc7cb3a0328d6922ab0c9e,0x2bf4b74d263de5e2b9a356fbadfe31a8eb00f8a0772fa3d1262435aeef9df102,0x3626dcd6a229e09f6368afbf2552f494064585d1adc1a5a566b36e428fd2f47b,0x2871c1503a90f8b9f2b96af0dfff95d0bb02b1878b46ce1095c6390188a7bff1,(-0x1148acd711cb720e4d9ff3188f7ead2f4c7d18fe9345108349342294f1972306));
(false,0x1e49a76b3230b9e5107fd875844b1eed228a4d9d98326e9d34f5a4d2b19d4ada,0x25352e9e5a07f349da10d6369221efa640ffc125d6dec69fea8f624345970cca,0x1525b6cf3932fbde73d15a974132feec162f2c46255ff45c09f7865ec4c640c2,(-0x15e234beebba6c90fb26bc02143123614a35068005fd4d54e23b2802933855dc),0x12f4e51cddb939eb3610febdc086892c245cd3ddb346db677536a189a104a83b,(-0x167762e3262c1f8a1ab1e7b9b17defb329cae05ce08e2d4b9b60d1df0650f3c));
(true,0xe07da4df9d599171e64cc8f89c62c00e8b59cf31d20a77f855d1c0e572d3891,0x28989bfef02f43bc40e7db5a315c278713c00527a6a85e797ff17996f1049cba,0xbb465dbfc80d9d204843f639cc6c03463d239250b0719b077052b538ed38cf7,(-0x49900376fa848fc3ac15380640be4fc548180dcaa22ea2e9131c99e92bb07268),0x4116b06b105342bd4614c5a3b78960b13f4097bb6b798c6d38919ef31470bd3,(-0xfb803ef8eb96216822ba8379b1e988580cc4dc4bbaeb7fb6855179d154d4a9));
(false,0x264d49112a9843a5f03f6ea398a162c54039f5f466926ac6617e1c12f3277bf2,0x2c5fb34e1ad96ba00ab40761b8d777c1bc01781afd9083d379fa8a615d811c25,0x198ce2e65007396a27c93eb07c0d1aca3443a7732fe785da9d19210a5eb4727a,(-0x2021b3614ec1e724869f6b8c57279cca428a76a32cea0edf4e9ec325ec43a417),0x1e50d62beea3d642cf8cd8007b728d17a0ff4a638c2e690cd5925d225d38b7e4,(-0x2fd72acf374ed6a3929c7e163314ba392226e29c5cf16d37db732b5b6bddb97));
(true,0x203fe29119446a34ea6555cb6ffb0effee589672c6b0d4e2038a069d2447ad42,0x1a3bbf095310bb06d92c7f2a19a5f23bc789a8ec1cb9e251e82539c40820a325,0x2a41ec424c2fcabe6361d1d0b7cfcb0860022e69df431608b7c53b8f1a43e60b,(-0x5803789dec634f45c68dba0da35c912eff6bf5ffe7b7b474f1e32f1e6fb66d23),0x157deef6764d3d80a8a700216c9c711d0b08a5cf830216cf43ad9caeacbb6995,0xc16d9a1c760e9ecbef9805912f3492756a37001f44a488da7527de9faabd97b);
(true,0x2afa14dc76c5b83eeb93074a5027b719d00adaf39d999593f1b2cd28459b61c1,0x2f594370d8273d81ec8eb807ceb52c4db10f182ebeb2e869ce853f7e389870fd,0x17654c059c88236fd20999bd1392b6190ca08eb6c451d249e0171b64dcbf38db,0x2064f2fd96551920dad86053b491774cd7507e04b44628714bef1379ba5ec88b,0x262af8de2a5efc12a9e16d1321dec2bc8841dd7233508fe3b4344286e6301c3a,(-0x12c0a6c2c6b16fa03300565a644fdaf661610c2e64ddda9e8b9f8008a01c26be));
(true,0x80dcc648c3d70b542121a2a41b029d586bc4320f2139dfa1d9f52ca0f9b6181,0xb7c14febb407ab30a38d48125f1819a6afbbc22166ae9c42cfa02b8da78f66,0xfc635c75fabdef1052f05071906e089b39d3abca5ca1a6e69d0b625032c6583,(-0x8332522aa551a0dbeb1340e79ad6f1bb95d47d69ab81f6763389165195ebcb65),0x15725aef73533582a90d5bbcd3d419888966479c6a506931c37bb2e668091a1,0x7c2c588e0efd068447533243e1d263dc571f140508d2935cb713e81885d45b9);
(true,0x223bf1149941ed9e43bffa8b90586df123475c7d8372087d65c7be51f2b5b189,0x1608e6982fb6e93d5f54cf4572bdb17458dc71eaef12ada76e9fcc5c1d942ab5,0xc7f3168ef97de1d70813b474564289e8c7e50d27cdc4d7fe1a93aa2e5e5953,0x164960e79cfa89540af50e72e6a6265f6b5ab50d6d3c9b5a3de5c88256ec764a,0x1837eef13fe67f89b56f8da043a900ba5594b2c348ab3bb50eda277751f571d0,(-0xf1495aedd8d4d24aaf538995adf2bf7867055b9f10f1dc2a4f630561b667b1d));
(true,0x239cd9c94c89352440c7d9096a2ed3b8d66b6cf8462294dd2ee6b31885f0d4f7,0x22ec2ff0e72ef9915189d66966d524429c5cea6344ffc5036557e9f1b33febab,0xce4d56ec373f31e5d6fe7df760b4d4f13d57ebc38344cf2b8234fe7b237d85c,(-0x1cf34cf70744a9e075fa6c6c38b2468a738623b53089740ab538aee1d795d5c1),0x1a354eec96d33018b2266b2c77ea9d9c041ef72080a8835413c39f2277e1c53c,(-0x97c0616626daf16483f88537f2bfc1e63adfa3da55eb5dd8f109768c9b91709));
(false,0x1b76dfbcf9c52e70ef91fe9de172a81072fbb0e96d536fdcfb7c895202e663c1,0x16758ed97c9e72a32d7657937b1dde4585b8a228952c525d818b261f9c6c245d,0x147b062164b9a4f21088dba47136f906baa6cb058afbc534fa91a987cdeaeb35,(-0x13d1eca3e8ddb4ad503439f1a7408fbee421d6fd65482ab2ca0c1ae05a16b7fa),0xf964f7ae85a15fe94b67a97c6ff612d40046aaa6aeedeca1970959099fec778,0x712d04008634bb2337158fb4aa804bb9011fe238ed3898e310fdbd717ada83d);
(true,0x6522596e9ad91e880aebbfe22aac12f303013ff7431246ae8df799ffaab8203,0x86e5c2f78f9b3c00e8b06251036f6557259a24bcc2520c0f5c91ea4523ea407,0x2fdfaa516f13f4e28b85db21db996ae39dadf5bcda725a5f41d450b9f6186715,(-0x19eba2b345573356e25a3673a49d14a98c6dff665643427176ec24cecbb5861d),0xd35c4c8c29188d64ab762e25e4d49a298ffe99e7d063eda9bd7bffc2f21f48,0x1d5140a66831946e14ea08ed6145d57bf9c0e86627fb5648aceb2496b22dab8);
(true,0x1f1849fe4001c893758b8b7333233079f6f9977d3d85689119144f06e7fe9741,0x2df16acd63adaae160444d178748eb19d99136d1546a9fad545c6ca42505f269,0x2267d60cd4fbb5b70d539a95eee5272bba168f858dff00896f1813314a6fb820,0x391dfe073888594f3550dc29b12fe7f8dfcebae9c0b6a7dc8c7b8f249c343617,0x13fb004a8aaf9b19ed8a17698becd2a7c6d61f106a96149bc6c17dbfa2d6840a,(-0x181a96033995884cb84dd97c02167c1f3de4d21b7441086825a431eef79ad417));
(true,0x1f0494ab05e6379f5f329f7c0362d57da02ae6801bd348b105c4e3209921572e,0x1520c8b559fcd66f3b3fbfe14de96bdad8a3e909588226a84c51538fb07174b9,0x1207244535c8c5a1b37dad1e8031a89b57bdf2c029a900033b7e5b522b1ea029,(-0x56bf90f38be7baf537a4e305dd69a1bf29a3ed49bbfcc40f5abd22a5ef6221b3),0x13e1b46bea959306aa8721a3ab039c7b175392b4ecbc818711f8a06c290ef2b9,0xfe7df3389a212646e604da47ab9fae8043404977c8eb5130f2a0a93c7870d57);
(true,0x13831d905ecf1e4e6a4df37973516fc33935aa3af30bb6ef855a41e15f70d55e,0x2c7be149f515541bba6d717de721a0b070381c56ce70126979f174b00c2ea06c,0x1014b9e159a6a493ecd3cfa0e5c9f3e16c9a701f7654d73afc841ab70805ed9f,(-0xd22ba502f34a456391632ac09f0f9a704f3f8d26efa01a16e172bcc1ebcb0f7),0x7de175760f109b354effaaaaae225d82d5b77ca1794df6936ce51d61b0404a6,(-0x96ad814dcb38d8b441c6570710ab20afd072da1771997706362d0ecf3468882));
(true,0x3bbea1c1fda440f86583b8b3102cb4c7adc1f13a04761149587829d42d7cb71,0xa5e069b48b46cac196292963a8dd39869f81d0668ce5a08d375e7613405c411,0x260050c23f46deaf9a76ea0b6c662bc49f27edef338900f8a4d817045cc4c340,(-0x78316a9636439684b6b24c8987bb74d1ca77b1bc6d06d93308fc8e6608dd9852),0x49c2c9b8f3f454fea9b8d499df8976c19077476398c166c2745d75d11762f8,0x2a1ed6312fbb364464724636c2c39f11e33b62070b0767b6e4c043eb267bc4c);
(true,0x4a33edd6058ea8987616f2652888cd1a541f57c218cbc2bb9ea37423b7b9f62,0x11de9bb3d61a0f7273861ece85b24d478e761c6cdcc81a5a75e6077dc3831db1,0x1d9163df3d72dc37663c7df5e8172ce0c2a845a041d23c4abcba4e3d03b227ce,0x9ee0fc135be6ea47f39ca53852270e976fcf50d180f2317dd2bcfdec32e19d,0x71c7e5c36aacbb6bb569117a630c1706b52137a7a5bbbd746c47d89bd83bb1,(-0xb80f97bb8415549cf3be5bc12dc8edaefb228576e80b42dfc5bbfdf8fd9a4e));
(false,0x64424c9efb215e589a961e3a1758bb65992e6a54d2f4b2b5e5fe2dd3a878994,0xfbbcbe00fd5352f384ba88e41b9aef4d41cf44ebe94968ed4452a079c862f52,0x292f6c637e7f226e3eded45a0de10161b511e354ef9a1dedc423961783259a47,(-0x2505bfd6c8df66bb49a90af93a6998d01e206c3c08adde32a0982af190d591e),0xcfb7dd9ff7f0ff7133313eabfc7f8ce6021281e5e8ef6999603434d3fe708c,0x46ce4d23b34e3140d867477fe7c207bf34b493b5c8a562ae82252f090be3d7);
(true,0xeff196cf9b8d140a8fcc5e21c6538d48099c977aa5014d3eaca44d8701e6a93,0x5848522d48dae56edc8c23942425f980fc6a42594ad887c1562e492db8d9b1,0x1b604182ece6df9dcdc203b25f7d3e9b7c3f99295d9fa68cf7467787c7d41889,0xa2e1795d3c7cad7f1163277d958dac541477d0a09da93519c3ca95561d056be,0x4a5b9b7c3a2accb4b535fd4ec272967326c61a1397c6aab815ccc86a00cd814,0x4c4d7f879d6599f244cfda4bf5fdc8d28b9c0b5a07d7d96da043ce8034122a3);
(true,0x28a279341c23eed46b1ea59118a65207b196a504f42e7121364a6263c7604d66,0x2ee6f124d2aef953fae51cc14fdb6aaca2723f46da8df646dc1c29685af388cc,0x2239ba24c87772fcafea7d8461163bd54214dabd05d9a1dad4e2139dd70aa05,0x2df7cab160ef2f1e8f7ea9c3cf682a9158fa194e866319fd803c65a723dd5209,0x221ef7acdc7694c21e18b1206f88de9767756af81dcdc6acbe7f8dc761814876,(-0x27181c43d98de4ceef09b64bb7ca40cb208c34c102e36b95e5b90d7df871a650));
(true,0x2aa2fe20e32bca8709f73796c41470ac57ad0018125530ca37e19b594c4f3aa8,0x22c37b5d56a937d2990d661a312ef1303a6ec648b90790ddd6264a9e7b5b3da8,0x7df91e10c2cf2b4ed8bee118c0f0154faffde93abc0af0318600e5b8f8bff52,(-0x849afcfc341d302ba5a377be9e2b19f51cc7b59a177f7a8539898fe7ad24bd20),0x2590e59925c9ec218c934b72974f69721e557cbf233f2d38330536a9cfde3f00,0xab1e591bb71ad117e8dd909f698f01d9d1f15e4696b2f13f92531104016ce49);
(true,0x292d8af64f81efd0f4936d13fface7c5565380925164ba9ca572b9ae8ae14c04,0xdc92c1d507a7463568c5ce499ab19ec59bc823c725839145646ad0b668ecf3,0x1ad18c30f25515e42150be2485e8ad7f8302748c3bb5ef702a5eb94f7f3463e6,(-0x3d855c404ccfa1632faa9364b922e6aecf305c1cc5e60358768421c52abfd030),0x230a15003e53569fffd8c6afda1002ecff33551c4b822ab379740596287af7cd,0x1cd91dd60b6b2c199a8dbe331aebf211e333952c139cde420561260e36139b9c);
(false,0x28d2cf3da0b674b5a1cc638465f52d0a50d5a8a77404cf1ebb39e8f903cffd3a,0x4275dfd13ab433532dd5a842e1f0fd139cb84de48aa139f0fe1447c09fbdc5f,0x1aff230e41eb5fdfb26038b714bdc05123e32a4dd7e0e4ecce135283ee13aea0,(-0xba138327578fd749d554b8bbd9fade6e6d26f029a0438b2ee17c8716a99c1a),0x227054f05028c7e982d26f6e2cc4edfea985f3db9becbe677214b91b29e2e7d1,(-0x2c6fbb58facdf1489dfbb01f733a209e83050d5bb04d5fa8c4162de4f840cfe));
(true,0x81d712ddb50558ac5f784687863f69d50303fa273f69bea58041c57e285d3a4,0x4142ab9b42f5d9284090c6a570c1fdba1db596010798c35044e4c98122de2d1,0x574070749efdfd2d5c2fa1016013490229fee3abcccf52c2cf93f48604181b2,0x7fc15357a4465a22138ead20f782c0b47eca6d1b289a705c69f3481935b3b3d,0x15c5fc82cedbfc68b813edf82d7b80e1aa4a13290488dbadaf1f24f113a2581,0x3384256506418213ce78d515ff4eff14d41f0e18c15f8391bbaa39914b8a6);
(false,0x42f39b031cdb721e7311544d7532a09b96473ad886b52f9275ccbe8476ed708,0x21eefdb2e2a61343035c54c917a1a0a6262c66571a1080572e085fcbb178520d,0x2bbf0794483dc2905537059ffe811714e857e0c2923b7bfcd2a6a39a2478e7b6,(-0x5a4a321769a420e1419e174983cb24934485c1d0858f7785418fa102496bfa),0x5ca12cc5cd43c0fb24c70cac18e2b0533b071200d257a627eac8023bd83b61,(-0x294e1573779d4131d975f06c07a1107a16ed804d107e2b4ae0d4750f2414748));
(true,0x259da67820fc1a52337c467e3ffadc1764ab295653e1cad98cf9d2ecda40cc98,0x13cce7909068fbd728a2549ffbb7eacc0428e6e0b23dac20c27dbaa75e5c3ee3,0x10dc66c256bbc83d6afa3177eef7d543c9b406b23f151ff403eef24a3c394fd0,(-0x36032eedefc9c31375afb9b9be997571dd08db87ddab3613f05bcd2dd97c5db),0x1d3d4c43f71349cedf35d81a4f27a10d77c3eb784084a46acbe5d4933e35b743,0xafc671b84956bd041d6ec7ec1e6c98638d0f854cd629ce3e2265ec485bea16a);
(true,0x3ecbaa8a2b930112dd8fadb0432b7bfcc87526e8ad1a7e42287e98b16419c66,0x22081a964e9ac76559a07f60fbfa25bf2d74c9ed1527bcbbbb1443e5c46915e9,0x2fa48a790282aa8ac196f38e02d46c475fed28147d1a32ea0320ee55d7ad2052,(-0x1591f6265d9dc4b9475f4e4a6f102f2703a174d19dc06673b43bc2c7753f1e1b),0x517c900aed886632cc7e716b95172b94425da2986e574d8e58b8ed2236e4f5,(-0x1277977fac45248fc7e5f15cc9680041610a3db6f7eed627cca107c0c91c486));
(true,0x2dfc31bdf16cf90e4cd8274686dbf6b9a2fc6138b1b3f03553f987d678d25d47,0x22ab3c51f7cb5d9b2750b2a3c6af6bf91d89a67c06373013445efe822e128c5b,0x1e95adcbd63b212600e9605c12817652b225d762e6686fc9096ea25db883c041,0x12bf835543f737d025ac5e01ef228d81bc78036b237411c7b994876299055749,0x2bb2b937180e390cdf0ae38ae04c8fd16fe3178234c919d8463b7d7e4393f184,(-0x9b04c8197c789a8deb7b6ad2e59598678b56570b91daabcfee533b17bc2431));
(true,0x36b34e4c7507c12178ef15d150830b34007743679415505103df6e36abd717,0x2d902815340597b926d5a4f454767e6dc70c635867d9d91e229702ab998d81ba,0x1fd6954fe8c2d2721d9832974404bf3c2573e138c4273d9789158596dbd5689a,(-0x4a3e0e65907f21ccaddbd8cd223c2081d7f46e8f4a97adb8d801921151cf3f5d),0x3dd4d829a500cf99327a96c5b122b201922f126b3f31eadb26b0dbbf09a1,(-0xc507f863acadcbc8afee879212310031caa4fca357e1535b9d9adb0ecfd64));
(true,0xc7f753ed32f3c89168c14c57d8c59d8ac3a8547f3b84c55bd19105bd32015e9,0xc1f36872bda80d4c93befef8195f2675b2a55fa6a2c46f805a2a5645ae3e4fc,0x113ec62e764baf287f6b47aa42e24450c89ccb6a33455b8ef30a33c8273f4c7b,(-0x7040ffb6a15f5c3cf6f0d32922d335d3419dc2ebb92c36471521ddcdc5c14518),0x33a4e534df9e80218e6addebb184b73a0593c48e01c5c417ff02d54142125a1,0x8a2fc90a83da53824fa2dfe4e723bdc80830c2ddf3df810314347b4b0e689d9);
(true,0x790a8700275c851cec3923cae6a36ec2abc293d352b7cc4af852804693f6661,0x2a3736939c290318c6e057c92265f1fe54559cc7871b7b1542d27d3c123d8579,0x1757dd13d9af1926ff310dfd1e13b532d8f2dced39d74b3c76af8c45920e65d7,(-0x3b7b3bfada6fd8670582ceeaa4fb7064e606561f4ffc59081292dfa21b98efa),0x12ec1bdd4eeea9a866306b68641bb1d0ba1d61a98fb735d47ce9c8756aa2150,(-0x4b45cd51a289dd589de4c67b8475b47c9851a80d379e90e17af607c9bf84faf));
(false,0x1f66eacfcdbfec2b7cbbbf6d2a9ec452c5baf27260ff265c4c31dd13c6e6b7b0,0x26ff6a5145f567e7ee8bf7a764e868ad148304a4e50b5ac31a513579c7e5ef55,0x34f4e0242e07d95ad9a0812fa1e06253bb884d81b974ef545f97c9130148a53,(-0x1b64ed631b32f68fb6650025916bbfa909aa60e76dc09e85f1f55fa07eb54bd5),0x14608c2fcd4ff25ab0afeea391a818424b7bf2b40be35fdd3782ee6c09e9a431,0x21692755f8fa5e73af258e0cc279b7fad82b444ad0f907dde83bcef12c00496);
(true,0x2b6edd2d183a6560f79a0240ec36f6f29326dbabb8b1ffb168648d28a557c212,0x2291ff90b1e056ee420805ec6cadff5142b0540ab3b461fc10e31e9a7725937f,0x3191ceba0285cc365957797743ac7aea68145bd1674d6acea0d472a1456277a,(-0x58572a98747e0f447ab070df9f5cba70322b1793d72bca793c161667a48236ff),0x26fb80a878f9d4fdf3ad932e8396acbe332c8a59bc62ab3bb84799285869d71b,0x3f9464c0ef17789f1adf8c918297684c92084f7a0961e8ebf79fab2426def3f);
(true,0x7b9eeacf5942212af315614f50344ba19593e0625a7a35a856b792e3d7be662,0x19a7305bc96b22ad7dac83d70093946eb1dd2ca766a44965839708dbc5d5bf1e,0x214a85f54a64d1d9c8c9a35c53387b2659bed1fda18c02e85e375db95bd15b92,(-0x49199cb79a4024b77f281a8851c45268e3adc778eff9348557324b1958f1d99b),0x13bcc93375e75d5803a4aaabe55fea2e9bc33077677a635328b563fb15f5768,0x16c79e669d035a2f6d519549d531401b7298e5fbe8c8fd3601c7f17b0d1f016);
(false,0x2aa6997c2a9591e5da95765ff769b67204f473047f7215404a03dc28d70b16fb,0x152c906ca3b7fb8863ae8e016c7d3449fa4be835cfe4f80e3af93e7a9e34d327,0x186a8454e1886cc90fc382f9650df8552aa1597695a8701f7704d5b625122eeb,(-0x169c146b36816fe8f48dd87b5a32d4a609327a0ef3c959a7e88602049eabab09),0x259740f4672597d0921c8f7c0e260ce76b73e3b9b4ea5de9cafaf3af619787d3,0x3f297d230a1d0d55cb80cb7339684bb1a7c6e03fedb2ba796c072d3c2c80ab0);
(true,0x255844011435b81573d9ab92942a0e668c8ad75df7520317714c66e9890e9022,0x1d46bd998773e8271adfe9d2e4af06733baa054ffa2ff7e2e4a5cd9c7d964b0e,0x28e4ac4aef4b03ef78ce0753d5cfc6c446fe5a650b8b21cd4346dffb3fc438c9,0x9e3e047cf99fa30bd926d30a2fc07e144c03d94c7c654d2fd5fc0e2b74ce699,0x1cd1d19779c50a7034eeb1d27508097ac19ce9de533cb8a4c5fe4c7d3ede5328,(-0x640ad543077cd9ce99358ec19998a0f808ee653365c7e5c7351c33430dc4462));
(false,0xf43dc40e7d31577de7af1f17cf322859a525f6faab25843ab23ec21ed407045,0x169e45c1aa511cad10ec174b92da022ee5329ca6d51a72c0a88ecf5dc32d917b,0x19d651d513dd929e2aa91847b4be0e64454dc18dea442f0e0159de5cd708dcad,(-0x93c327dfe83005a3dcd6fbdc085e2ac9192416d28755458fb0d8e2ae912d8e4),0x4d0b98cca442f7f94f619b9517f1b23ea2070cdf9735f485df35a9cc4f8960f,0x219ab93b1d04bf9345441a39c84ac9fbbf1eeef612a8cea709d4b4b045d3f29);
(true,0x12d8c2ce6ef77228726765f55dec75ce5b336828de0342778f2b219e1805789,0xc275206df2ba115f34b4ff534883baecc30c56ad9a0b7fa0cd12e1aae243a36,0x2d26506ed26c5e91cbef8c7cf39ab42b2af15a1579de02bc79514c793331d854,(-0x1e75164267fd6d9cc1c672292d719227fdb3ed09d5c3e05ec43d15eca945ec21),0x7570e4513736e5b77df41ea2b819d7913f86a58329a5a375e5460946f0a25,0x41358da4c46d179c22f8f9c6404b04452b7b245cf4668bd97d47016bed71ec);
(true,0x4bee9339b16c8212a77a6352b7db10f96d75a196d5e46b03ff8d9e31f3d4320,0x1444957cbd6b97a7b842393b449270e96fb6bec794a0fa4bd3cda11d53c64192,0x1cb668af4e45fc3e5d5501ef3224e7a9bde9d1c9a592b60434b84d65f9085de,(-0x4d319768390aecb560936fa83835ed0a5a2846a6d71ee103cfa7d9e98b7d2c),0x772532fb8e8fc373e8722f0942c35c18774cb47e38a832b32fe0103ecb0e02,(-0xcbb72bbed7ccbb9cbfa2db62f64985fd73504a099db334deb8bd04b3dc5db2));
(false,0x2255f0388002179e72b6b3a0b5d2628970f3767bdd12bf7ca5eff7dd4f273327,0xa9871057d2cb16796e4832f52930f7266d9dd7b99636f94a96c4a531ade2372,0x2545e0a58417e2b8fa0b1b6f55bb477c120e803421aadf6156c4291495fa56f9,(-0xe617b830a8977846d83b204200dee6c68ed54bc3bab3ca8a672362e71098165),0x185cc5168729ec76174b88edf8bb3b568dc02763d7a3f4928ddb95b703762aec,0x6dce8f5bcee6ee2a948b122bf1f77484e24623198d5816505a079eefab21a09);
(true,0x24be78431847aa88f5ec62fca4ee2e51b51b3d1dfa9e5a30519dcf13208f2ad8,0x1fec771d05b6c7e1a3dae0ad4661554dd763881d096726f7ef58bd5d2f72c9c6,0x717c1ebcef7b79d4b39502b110e214e89e2473a73ae14da1794808781e6f724,0x31a4a86c54b0c4a2feea7dccdb33aa997d6a7bfd5be08d3843edc4a0f1495be4,0x1be65ab2824df978505e4b520996400c6ecb3821d6c5fa7faa757474df4c8596,(-0x1031cf07f4eaccb270bc6e959f02a14984da91b11e887e15b569cd1911836cfd));
(false,0x14e9f551b46c7cdb4d9c116d7fc40e5755a27e4b83978f15016de58463353ed2,0x1530c7cba9bf1896461682e8f10c18873409911f02487826804247c71f17fdd9,0x9eb06a770d197b52d4c2a5c883ca2d6be0511609730ae8fedf2bee53a39b017,(-0xdcbf67d9ae6b0cbbbb7bd4a1600df0d995bf0e2140e7e6f94911045ce2869a2),0x909dd739ad0b59eb62b00d671188b0b3db49b33ebc552cd9e91680f6fd39ca4,0x4a37d70651e71fc2e38417f5fae757d8f2d14ecf2367ac0fcb702c67acf072f);
(true,0x16dc050bcf42cc52f26c268f726a427e671e22f3df1a706b895906c11efbfe11,0x2597d75f4a38804e1aa9aa6b22b0e42855af6f152f17fe18bfd8e9076d72e023,0x1b39c13abe1c78fd451ee97ec673ef6bbd6777ce26a54b1259d422409fae547c,(-0x1277ac6ceb6f074eee8e8507a6234a94faa5a06050c71160857b7d41ddecdec5),0xacc6457643a8b9a9e71df5ccbf7d531ea0eb2357175bd45b06402c941d8e14c,(-0x7bf9023b3a773e96b50e0eca414af812a8d452ee93753b46210c5c79504777d));
(true,0x11d5916e4f57b0701567c02b24104cdfc82d9867eb6b0b0e726e56098813f7e1,0xe2d702833601c12888e34206f5d62712232f68355ab0b1aac59f27c3c70ef91,0xc7bd831475451cc41c42c719d1edbb5dfab0e98b68fbfef5948a553937bdbcd,(-0x438b902dc77224a346f684961b090e6a34f3884ae5bb3b1313535aef625c0463),0x69296732f113ff650b7f786c90363fde775e1d8b1df82163d0d0d2b541343ea,0x8a12b205e1e07f12208838fc10b75ff4924b66d1ebbe424f0f138cbb97d1e09);
(false,0x14d20a938a7279613255194e71fe846866c1f8a747e0a078a1b7a193a69da5aa,0x10c48821bd9506c94cebac24b48b8b462779208e30fa2d2b9982d917fb21b76c,0x9942ac7b075535e8c14466ca662312aca5d34a27e3283bf5f9685d91d70c934,(-0x6198ec4412fe217ee122a54870884fda5c362225d3f9abfe8a1e99d177a30ff),0x8f53d09b8c6db559664e00d42f9569843f89b6697a8b755a72dd57b3e25ede6,(-0x11d4b68ede65095db1ded4df42ae2b16e42d1ede665577d4798934fc670836f));
(true,0xa14b34249dfb26b03dfcd95c0b9b7a8880d80b673c9740cec80986b030be5b4,0x1951f68a38fe1c2e9c2d34a46982e79fc780f284ed6516523db573acc827d487,0x1357acd4fcd4fc496c16eb197d72db180536ba51da4ebca84436f6d016c3e81b,(-0xd70694ff1baae2337defc591b9d4c291cafa47bfd61a6d2ca67a5ef0ec0c790),0x2199ad7ba6ca4027c79a24b210c1a26332bb341991d3682ccb2ad6a15284331,(-0x1c818c2009d3e9dab44107a92d191892042084dabd28aa2cbaef32c15b34f4b));
(false,0x94e6015ed3f718eeb1577a4e41121ed41fe5ae341ab2d8a4188b6d8f488d115,0x2017de0efb95308760437bf238ec5f1de787a6158773f9cb5b12c181747e8d3e,0xd625b359fb52910adc2d899573c3256d63931f03ef5854140cbf401d921de5d,(-0x4de89319bba568299aaa15ed972042fd7d68da52e8d1c7a63b458afea71140f),0x1ca26996471a24038120cd3d9352ef7a7309890832b5304eb9e9113cc6ce9f3,(-0x14d71c20d7a298da62239914ec5988a493fd664631595534f340fab1d08547b));
(true,0x2d6c9cce5fcb1a9ae8fa56e66ea545a2ee576254da138a6d0706c2c614cde870,0xf48f6c01fbe53ef800711d34134c40e002b91d945550e68a0ad90e1345debe0,0x2c999cc78ac17ff09690502f3544d6668b2f9479f9f326fc5ca4630e5e972701,(-0x26b9b1f28043c59f7b4333039133cafcd957ca5c7ec2f08b49cb7aa94b42efac),0x2aa38173cf3842298149d7c83f3f8056a8a5d7fe64f34c8e72307325b9102aa4,0xfc708da1bf2b6e6b635e345d0e827291c92dc6f244f0bff4afb50ae1910c3c2);
(true,0x12935642a6a1ca31ff2ab6232d4c4bfbbfb733405923ffabeeca3db7ff744d82,0x2c75ae842db49773416bb9a2e788caf3f585e44816648b6914e90dacd26832e7,0x13fc592d37c6a9c682a4e00521e4cc19e028ea284f3b186fa5fe9a188aeefa29,0x13c19e6084828b22ddc3ce1a1a88863511204b4187ffcd0db5fc17e3e7a32b04,0x7215e718ecf03fb835ee7aa8ae1367d69d717fead82f29f8f6e9f9de6236b5d,(-0xb32eb3d4e35dae944ce6fb10dd5d63e9db32aff18115ea7cf2f53faea474db8));
(true,0x2e2f5422d63905a4b3c4c7771e02d95935289abfc979d7571727337a8459d86d,0x241af65ec6f2eeee8e1f03f0ca869d37e93ef8613ff57656dfebfdb4dfc48a26,0x276f75f57b0c9ba5619602a6ca0fbc7acf918e39fbb84d5daa58db4a7c8cab87,(-0x546486e030f0eb93d628d4ca733d9a39bac0727529affc5ebbdd779de744ee69),0x2c141dfa248a7f690fd89c7d3e51a669ea3f717c6d93c7b006bb61d1662d2e75,0x7f92e7431760237efa275541b8304e7af87e0f81488b709190c40505daf0c7d);
(true,0x1f107067bf1d3dab1139c02caf3dad6a82d55b7329a49958cf925e59f9323c50,0x282c524176aa7b87b351a45fcb540b2d459a6cbce07814b056521707253644c7,0x2725c019fb743784705a469f564d84be7eaf372c12e16a15df847c8bbaad095b,(-0x1e2f728d05400b87c57714077e24e4bd4c5d53961a1de88b587c007173287c8c),0x13f0eafbdeef214eacc7eea0d92c115c58ae2258cea353559894fe5928b63fed,(-0x29c7b0d6fb66b055d033d42dc3c269ffe286360779a2e3ddd7641d3bef3c332));
(true,0x2d609b61ba2fad9cabdc7f7977a7f827ac62db9ad84e1373ec7466c6c7c0d2db,0x1a76843b5a171775deee49757eff3075378767369e10935ce63e59c690d2a3d2,0x2620ca91c3f193bb76adc01fdee23bb3af1f7e5d72519d11028de255bb5ef69f,(-0x1aa21192a94ade35afaaf4c62e759c9bef01b5aefad60f966e064c2d1b63aa61),0x2a8cfa8733c4067811f047d989d0d8489f33b34b2e48af0c4babfca824ecd9f9,0xcdb2b85d7cd160ab29d5132a3957d60e2d95bb9b6ee08530aa25c622ff7ab9d);
(false,0x236e3deb2016234ad1913795ed3db9df1d3be91f746ca2916d48cfa4a0fe229,0x15cc03878c7377e63257041b66167f5484d9269bc17a3716f1d91c5983fc20e3,0x2c98471ed00a47cb51e6494d17f609f61a80d216f63ba7a154b84f37cb893443,(-0x13600a67c4eb83206028836feabd43f02afc5d9b19a872ea94fe6235079ef06),0x19f0e1ec2372081aade5c90f18b7191e9d789c7153f6d73f2b8a7197cba5db,0x36a91aa19e1a1375c5aa9ad42f1df7bcb2029aa1870170bb2dab61f90acb65);
(true,0x2091bbad1b06e0fe0c6c4d4d2237533507445ccfff9f2eea3eb3618982f1d930,0x2042752090736f236f85f2b2a46f3429cd3fd56c3954efd27b657add8fd2c30a,0x13a168732fb220f12964948a4a24c35fc68aa5d2d83149827d941cd5c5cf4bbb,0x1e92e7980cd8c1baa755b2d563a19a7ca0bf98ce2e857902c137b7fc70ce9345,0x15eb90c6ad88946fd7d2f39bbca5cd10beff56d81a80b70b39a94161ccd76430,(-0x70aae039a3a9c2c8d33a8112ff67b85e2a369e25dd95b6b4aa7c86b0dc0f64e));
(false,0x1bede21396707e859ea7a9215e96b36f96ba07a1813910c248c46d83565fc3fe,0x10367f82184fd4d10cf1db20d0bec4b76d756bcad258f1fb8c17f701a14c4ea1,0x164594af508f44d74773696be07549eda4e4124aeabd9fd65c8dec514a740821,(-0x129e59a216292ced91053b37a665f11c6d9798441cf4db5f95b3511a5074395f),0x101e89f5bf2a3946c8ff4f9c13ab71c4aeb759a9162ac5ca5ac0469c0371de58,0x942e64772c792217fdf373aa62b408d50de91ff115e5318b0ae84889cc72752);
(true,0x1aace619a03a84f0ec4be108809f93e854ec01a9f3c617bd050e733d76a44923,0x20c8c3549bbaa5ad36c140932386a654d5cc3f3dd16a9cde8caa85fb717aba66,0x2c90200eb5fd1a0a838697ecec1e000c73a369d488e77708b355c6abb72289,0x8422e94e65a9ef1e85eb9a92b9cfbf58d316e1bf364a8c0deac0c95b1698743,0xeb45850e04c4deea09512013c18ddae76fa49b559cbcb5c185e6ba769a9a321,(-0x9227ed49c2ea7ca5ba9c8d0300fe13678fd74363738752889a36abd11731399));
(false,0xa3b0f886374b6241aca13c1eee4112fbcb9f546a8fc18e7a5949e08c6a4a106,0x2cfa3e67cf87549e8a4a59ba284ce297cc1f16905d4ef94039cfd56152c2d4a8,0x999ef9ac0bf41fd0e223535354745a827adfd25e97b7d3a449671279de189ee,(-0x6ee58db427714fc4fbd1e3f03842809376b162aa172664e75adc5e74555e801),0x229b4b8405cc6c950f6bf30109bedd2d3f0510999b50217b96d76a488bafd15,(-0x293ecaf1587d770d679daa97d32b448862df1ecdc1bd2a593d1d693f814cc03));
(true,0x22ac158d9a0376c00c84535176768d29802968faf129573e6bda7257abdd9ea1,0x78491b9e55dc2073197dface915a23fe6944bb62c942e09019b82a60be5adf5,0x1a33ba0ebd1fd8d68f7e9781d9581ea3c3edb117a00829ca7ff0936e06d72282,(-0x6fa762a1a21596d4338dd8743758c2aec687c2b33c9b6ba75e4615d708f6c564),0x18d79dab75f300fd81e90a50e2e940ed5a7807d3ccf0502e201e84bb68d9c9fc,0x1ad6e53ced65ad0da1af8a576171651b383aef7845418bd6979b5a8d93c62423);
(false,0x21c3b3d1adbf6b5eb7e3ddedf3ae1bb4c107bf3282cd9b437c16f4c7c570dec2,0x1d6381efc957e6950d76702b31d9eb989273969e671a8894d861c9d62671a6ca,0x1ade697f8c6da5d5e64fa5020474f53035ba9ac8685b485dee3e034b6846b5a6,(-0x53ed4c66d1f64ebfb72ac6aec32fb415016b521f0982e4d1d3ba9dbab0f6f92),0x178efa1e2b762bee8a96ff6bca9cf188038504edcee5431b45b125ce4d3db644,(-0xf428d2d0871eff0f81dbc8230262c33ed6d4b28c7b6727756f09d0fd5291f92));
(true,0x10ac665a4a123785ed748e836f372229f859b6001c7fb423dbd87fc079ad8e52,0x2f42c62cc33277ae94e6607ee0407e692e1cf9d6c9dd3cca2597058bc836da0b,0x15c10b32ed95508fb7ed0c9160bcb9c733a31488a96b140015591dc667ed57f4,(-0x2307512e5bd82a3abfa96e6626f6c56bdedf25aeff995678ea896a397bcf3fd4),0x5beae21876826d4e9b1d747416ceaee6bfd3599a3dd3dc107f6c24168d8eaa5,(-0x628694e719403c699a77171ddd872694b9c50de8d8aa2ee1f4bbe2f1fb9866c));
(false,0x2eed06629d730341b1ef3a2d557e2c0a12b96ce360a71c2ea235824c8d7cd8de,0x74a61cc9d1d71942f54ed3dd07986bca5cb2e59c922e179441e3f475c6537e4,0x11818746d628121953d19fea9c7b156e5a5edece2350ed8cada92e8e1745a714,(-0x2dd44373b11a78e31b8a7c564a142327a2884cd3c298a070bb4be7fc60b353e4),0x2d811ca6ff300bf36a3115209ddfc998afc60c5c1d3b9793bedd5e1d762b4e94,0x26c26b8ece23a32753e6bd757a4c74715889011ebc062b8117de890c874c86ca);
(true,0xa84a7539c69eb2d9c82a6fd037135c2258c15c7370f092a4007431e65babe4c,0xad2284718f5fcd779cbb86d5bb04fd1e0d4edc832d3b757062f40168400eb17,0x2a616babf69c9a39445e12d227b21fe53d0b3b98befeac0639c70768d19ce908,0x4509c7686afc926a091befdfebfa68c3812508b31bb05c980ae5095b4199ab0,0x24942a0c0709eb4ac77beacba6c9dccdedca0e1804ff21d4074f6f2df198bb1,(-0xc4708908f33939c9bbdbddd28f69a9972d4c5a032c8f9286b9317d8c299d40));
(true,0x8f79e71845c3fe5f4fe42f5968a6fbe61787a21cf9d73e852d8ff400733695c,0x1a7e08e007c8442366a8013bd34de8c72d92afb3a506239dff9fc79bd54a611c,0x2e8934b89b9a80c42916636f61dbe2566884bc9ecabd3a0e0809bc65f7f3223c,0x87299ae14ce1a9ffd2cc9ea51846cbb5c4430aaae48aaf1b273fc73c976598d,0x1a963ef18cc0e5cef8b25374905f8165b40d4fa814fbf0a6eea09f1b0b861c6,(-0x2e76c128f0b9acd4b31cf746da07f99afba7c3a9a301ef9eca12d0cc75d8210));
(true,0x216869d1cb373bdf64d91248e61d489b2ee28a13e1e278f6bdaef0638f6aae51,0xd4925f9c8d0e2e2dfb0ba5492d942337557a5efc70a82efac69a95a52b676d,0x2d512cd7ccbdd13a95ea6d34c7f32a98ac121c29d5d57832fb6ba0c1746901fd,0x14be46f2cdba61303d5b87b91a413bddfac2c52bb7e569dff155812aa90288c8,0x17104265515b6cee4832616060aaea3f1860cab1f915d5fb4c562b1bc0060bfc,0x11b74e5f05e9b94f7551eb656340ec56cce4edcd51b620303f7420665e9bce26);
(false,0x1ed60eea0c9a7dffaa2abb715849a923caccf5a3f6b9cb8ceaa8bc5953348e30,0x2e21cacb1fe1b5bd9b74583fee2fd997431bdf1fc08ab900a2f7155cb1a5b112,0x18926b94c8857268b549f398c0f1a36ae9221318156b8147abc369a2e9b040a0,(-0x8774652f2e13a847954f214591175e89625b59e4bfbec62135ad490f47716f),0x13a63d77032a485d45d5df33e7cd6177217b83e594646b4f0142c572dba83080,(-0x1cddf6ad20c0394619b4622ab5163a6fd8766616c57d40a7e48328abce64978d));
(true,0xa18e214629e2033249da449fe0d8e953e30eb5a19217fc1106f567eb89c7ae1,0x53c5de0c5ab5cbd296e9b25d866d0b975531ec946d864e2df164e5db6a91d07,0x247562b71f69486c2e6b4bc1cf154254a921c92efdc1078ce22e2c1752df878c,(-0x79add30d40e47897d8d85b03b1ef23438313de2d66431ad04726fd43169f968c),0x21b59587205fc9be870f0501e3e5e188c4b3fbd11d52cddfe5b779fb33eba96,0x8887fb4932071cd1e7c67447ef09ffd4ff910dc6d1e2768e34d0884c8af937f);
(false,0xa07fe4f68a55c2c1e0e93a68a5240a3ffe2f06665ff3f3249435911deff943,0x714a991d525d56f0dc4c46de05c7738e9866c74c202d133052df6b554e7554b,0x2e30ef1b3ad2970474f77785ae13e60492c13039fa57167655c70567546ae36f,(-0x115d8d02932bbf491e2bef0586f40d7d8149e1ac3d2071024f023461770e32),0x21452e32c239fcf50af4445bd991f1cefa3d85bc342228165745ae03cf536,(-0x61e729f195d4e83be84ca6ca3469b11b39d2c60afd901510242d241c948c7));
(true,0x22b5b4b1a9ed8422a4c7971f4e194c46ed69b80a1c488bd5c847944e63d022bd,0x1328c512466228c54e9b72a5e032af6d402a02b93708637fce31ef32e5bc7c7e,0x2964bb8155e2864144990077a5189a88ee51406f2d3b87a5933153affcb05d4d,0x3f278c375da40260e7966615e47be217a57000512e8a9b7dac992109634ea1fb,0x18e5693584b6a37c04dd62137ea5c940c50a249dd60e56daca261788664b9875,(-0x8a9dcbb81d961438a6beafa8334f054e86a25c306702d1a4e9a1f24501df763));
(false,0x2a718d412346bb1465eca69763da3e00b0b85513583fd1837e26dfde0ba33ab1,0x23a25d3dec0d8ba53b0afeab87572cf88dd2fab183d78c097221e6a1cda98da,0x1a8668f1866aae3b71edfc5835a0766e6cd467830fa26a6f61d144435af991c9,(-0x10cde1bf46537fcdbe4918d797b3366b8641d0ff0893420fa315d5d273ac2e4c),0x2539f8dee84d69e7b329605a48b49a42d32dc06962a1a980726ca36e7e439908,0xed9d0de1e778129c903e764723205badc0ad3f09015aea1be82c3f397839d4e);
(true,0x5ae652330dc7d82fd3d1863616ba7534ff8eb8b108f5ee0e489ed8d63b83634,0x23d076ca67d3b44c2f3effb8fb134871c15561ddbc62026c41196988a437c94c,0xfae053f6e49a09f585188927a5a6d30f77a67141070768453a4ea1851d06c42,0x5ebad548ae6143788fa40dfa65b6ae48b128fc4fbfe8ca5ae9a65a5ea3138bc,0xaabf355544e13f4b30240705e22ba6f754477dcc5a2d65c2c6961e504cff90,(-0x3f172a377582e4778de82fd266220c8e1fd0e503fb8d932e2fa6c34ebdfe133));
(false,0x23d0835e09a4f894c2b5b0c2d91cfff04298349de31309351d1d9c097e72eae9,0xff3294ed08ef8c183f7118ba8cf8e8d06f1c6e16a0bf38d7388b55938a4e3de,0x2587b489db66e2c12ce11d7f774d99511f0819db3b68eda08e5d571b267c8512,(-0x1a8186d0000d4f81aeb24abdfd5c222f40f4c5e057254ff5881cc05a02997e2d),0x1a81901ed4c27a14abd39fa9ad412b5ba7065a38ee86d313c8b56709ee361ae6,0xeb39a4eeaad08a9a9754ab2764f85ccec91443de6855e628d654772a5186bca);
(true,0x6022b38d77804e5e50e6a685f2543585bc7f9ad9c99c94d582586bf757875be,0x6d99da5067c31fff007536c35eebfa74f665a31223c1bcb22ad3d997bde7263,0x14f760713cb358a131ee481cb4440d338d7beebdf423ba9b080f624408b56afc,(-0x67390404c89eff30e06b8c2424cef11f5e09bff8b32a2753d1271acb67262d4),0xbefbcd3e55f99df1371c72b2b9d0a63ce17cfe1330241c0667b010a71efee5,0x1213e479037ff27325bbe932139392f29396ddceb84986ee3a22d30c69b803c);
(false,0x1b19b295921cd62fe6b360c163f54f4fb4037f93b3033cbb513650fc3eabd151,0x90a65b4d7cbafaf8f3315c29171a1a99d2e9a08f71cefd9ef0ae41674425935,0x15487fafb7ec654dcbbeb5c0299ace5b8a885fc1dc8a5f3bfda85d132f9abee6,(-0x3d60f466b5046588f362a0f6b2db05d314a756b5b667f57c8ad1fc789c3ef32),0xf2d3f97e22c47f91b384a7f1f994b8691446fc8dbb2ad9cd3bafedd193a9008,(-0x13a0c7c35f32cfc06a9558dac225f300109aba708d3f0820c933cbaa9a3a454));
(true,0x1d7619362da842f54bb28eacfe5eb82f4276339a33c5b9380e8f745ff3dcc664,0x230323a7cc9bc9213cbb94c401f878652efcc2e950a7988a8a65b1fa49f417a5,0x1dc4af0f1cafa682002722435ac94d76ebbe92b44e7c912e5f88a1921400c358,0x14d90b0261ff9bbefd58496b1315403b4e4b275c70af7ca7e287d72b2c433cc5,0x11efb05d9fbbeedfe91f853f73e82d0cd86319e0ebe98965dc8f2a544b260d01,(-0xfcfce744dcd829293d24d7ea7f2087d452f7e12651a15ee83ed26880e9485fe));
(false,0x1be2f6983a1af7e993d960a26fa4a2d441ca73a69c44f5533bb84add6a55c52e,0x1b8afe96bd1dfb6b476089aadcda05806b911eeb56ffe0988d58cd847f2b8260,0x1ee260c4e2b09439dcfc497d66186fce991b3fb3922eb3369592dd1b8b9b40a1,(-0x142d27a9199093366825fbed3bf1733ad3aef71ca08312e31e55f2cc0fbfd74c),0x1011f19ca8b07b8521ce7b69b5665fd2d80ad12cde87eb388dc96fbfb74c3a3e,0x44de7918d17d1f2b551037784b8d524562c9b27988e5f08355fa6f51d35e76d);
(true,0x572da1745b61bf513dba54ec2a578a3540b8539c297138e1fbcc78dcf2c7b93,0x1425280ad128fd770adbaefdfec565e5893c28640b2eb0345f83325ccfc5435f,0x4f7c25fb72b15e06aad61b4c20d303bbab7973fce1ab00f7c203925c340cf71,(-0x28131e9a9981aa954476b5d56e54f96119dc4837e915d2da015b27047231fd1a),0x9d0d62c09ccfff02231403769bbc0cc8dcc088bbc2e52e360fe43742124e4a,0xd53c3996a67410516c96b53c6e2c83bec08c3e3e5518b55fe979d43c4b9881);
(true,0x2d84aa3d8955f65f249bf734437943524e31f4a0de91103b73c00615acbc23e,0x6ade6a4f5c65338e1c5e51721841af3b04e4be52eb1d611a6212107bfa478e4,0x25b540912fbb90b669b0932249eea050256a3d1424213f59f11135bf3b262d91,(-0x18931f931c6b8cd0a148ab2f25d10d598ac7a094be8a8c142795f3ba5cd0d907),0x2ad0b515d8bfaa43d00e594882252b4ac73bd122914aeda6eaf5c9fa870762,0xcaa8d01bce853dd3e84a3c10b7d459fd89a6cd2ed516f814f18445108442c8);
(false,0x23cab36606820730af30eb9a33fbf1d1e42d08dedc43f5bfe0d28f3a70ff1fc0,0x1b4134667974234f9e82f22355c53145ccd65c7915f7168b1de49ad1c94ccbae,0x1ba357075950160e7981384e512bcaa349bde7161b51500b5e576090e5eb8a7d,(-0x4f0af791bb76a5acb413f7c6dd39f0d83e75ed0696db737b3fafb6a573420db),0x1a78f658347b668b038c2c5427a48ce7208bc62f36a8b86586db61e18b7ecb6d,(-0xf37d4513de73ee6af527f83203262777259d1c699d5c60bce63e7ea788c458e));
(true,0x802f883f0d60eced70362bbc1f2c4c1466fdcd2c681672a85fc0bbaf405a4cf,0x119279241e2de4c966bf92a4ec2cd046ab73e3b8658cbe78694913c9be9ea39d,0x1fd601230d774f4de3d510babfa966afb8d199602d0a32db4982bc4930cf532f,(-0x24e620b30f06eef2a58e18aaa9f37d87182926adf1255ba4260b07497adc20a6),0x1538d7412eddca8b72fc898e605699b88081eeb27de4ce91892a5cfa0f7a468,0x19a5f0f85f836c6ecbbf5398f9cf194112251cb82c3bd4fe4b311344a176c13);
(true,0x17e373c475ad56d53bdb5f450f7fc0e86e29263c1d2134a7b367c3ed72203b42,0x44e4e2e5abfd9feeeebc86fdd7c79c4ac67305e87ca9f2b1ec431063d6ce01,0xcfc88a736fa8084268c057374272cf7b700b9b27ba48a9b73272dfb9a27144f,0xc49f64889e66ed02e928855a1c67f5e567656aab7a1c829f00e252f33e6a361,0xbcae02620022921cbf7c45f57766462bc8baec8b51d97760b506bae552367c9,0x88aa62d1c87343fe0b11de2b7ff322946d92b9d417e8bd377e45d5a76499eba);
(false,0x2035c26d488da60dc6922ec2877eb46e1f5cf16359968064c9dd6e9c5bdc6867,0x2c1afc966c92d7cf42944fbc1904ab934939346b0ec18a4b9da3d78b21691042,0x28cf79776bb89b65c6d3efe613726c19c74efec478a98b389fa91a25f1076529,(-0x2ddb41fcbb911b8c7075f024ac1feeb58220997c9c289a6d2429162f34f4dd),0x15707224fa1d423d2245549920908e90daabda9a961597266b7d8f98205bfb2d,(-0x1d2d8492f47798a821ea50f6a173f534d3a9de0cb339222e4fb7350f36cd899f));
(true,0x2dfcfdbadace61b7200f6c55b990115b1cf9d1c9ba18e8d1b642e93fa1e85aa4,0x1243f09f112d7f9a3ed830acd008c950b8ae29f6ccfb09a046165b4dc5172018,0x2402df6098f2c21a3e6da32be3760ed4195121ccf60df53c012f856fb8bf552c,(-0x2b0779d55c7092402db7ede00050c84a15a0095103abae58434d69e1609a8284),0x2bb43cea08785c7e3b50b4461e1b758632139ef103581531ae716fb1e96e7874,0x188e7bd47f9b8e38c81092b0f0bf1b39d675f45f7dc4a795082f9b1d8935e493);
(true,0x1dd75165029c7de9bc142ab19147ce20efdaa2e0ad3a910657ca72f79bc384f4,0x134c288943e66b89c7a55e362cbf4fd2bb6a70d69a5c3b0da4cbaec610538ae5,0x243c654e3c676eea8285ae6245f2eaaaa1ce453d8463f4cef38def3efc926162,0x17baf7976571d911eeb197735f6f923caa9e87cccf97b1e6329e60135c95b520,0x1266d3ec7137209fb32f4b536648d495eec708b555f8ecc2ca6ebb855e42bd7b,(-0xa2ee876e52aa9b1ad07fd1653b4a297e92ef99a490f41543267d132b2035f2));
(true,0x29e6dce264661dbfc7c20add3dacd3b0608c9f1be78550474846624017e39fd7,0x1ed3f7bf1d950a2c4dcf0fb5c61f6ecbcfe51dd4f2f138ab33e0b767cdda6fa7,0x2bec0ba7b3287cd24c11ea384de5855cc8b4bd0832de83f2717f264b020aea50,0x27aa8e6ba46525c4475a6d1973970823078701a66db9e911f2e757fb7f163c11,0x24483de8fdc43b50dc70c1863fdb82d0bd6ce3c9c05b100cecb3313b8e954120,(-0x9fbee4ca67833136622e654fd8754739278120575cdca058811edcb3901e8a0));
(true,0x15a5438cc2efc6be0d78890aa20fa3df053f74f1b597b1edecf7f13f710afd2a,0x25ad6de3cd4c586f6141be4d147fdd1eb5f25700986e7d633ceb650b82007b1d,0x277d9b9a02c5cfb3206ec5f09db7b9959409938cf272fcd7a127e7fce25b2171,(-0x139fda2162c4443c0c8c86421335da01069b0adb26af2627ed2aa0b37063ba93),0x9ae988b409e45a0fdf84806cc201a976ad7b36d9dbeea4ed29fa6dc47eeb079,(-0x31051d819a285409582f5de01771d55ca6c2994d611f75cf54a1bb064938b1d));
(false,0x23fafb2de4347f439f5f0e1cb924e027a5f4663d89d20c853735b862032d65b0,0x14ddd7d1a650bbe33df8993dfc3bf7a624f6de160c04d6667adf3fe5e5f1f237,0x6a5790c75daf697470eecbceecd6b87b495e257d1fd5eb970342a1a8d0ec256,(-0x1c03974d4462fe65a6392658cda234ff53e1a62bb0fa6e29ace98e36d8b6b4fb),0x1ac091b7fa4a562fae93b5a9cd8af4a5ce58afff9d224057c0e1871c5051ebab,0xc7fcfdf16d40dd3bd8a05b925c8bdfc774d3bdfc094d3ddc0742f9be904f859);
(true,0x2e83cbffca66d52c5d2081de37af9754cba70a35d595a83938afbb6606b7c9cd,0xcd5cc11ee6f114077c94e98d103bcc66e1934fcd012fbbecb34b4812530eef6,0x149f6b173751d9c8667d3086c1f82a1a1f7c554752d64339190fac46bb40a0e8,(-0xe3742b4f7272e5b69d9c51bd2ad4b407b8a4790e1e10ecb96ae287d7e6bcdb7),0x2cb5eccc83bfe1d363f5b3657e614178036ef40306ce55fb45b8033f1d14bac5,0x7b84c1d6c2c933dc1fc0ad2fb93de403e411d8ca8377acdaf76bcf8674540cf);
(false,0x9e1bb76e2f09b259149f0a92d4b8c3b715823359c52897992ce4e1c0d09ca9e,0x143d8f580d68625fcfcd5163d42b67817e085b922fdb08592c4382d1cc90e822,0x1c1719d0e26c18133d1f53150cd55900f185eeae1605b86cc6842e82ebcf15f6,(-0x29ef86d2916c32bb241b2223a478dc5dff0a67e75601bd27359bbaacf5c537a),0x204945b92467bb496d1ae2e404fc99af53fa03c5f2165f8c8a7937ba9b7e26b,(-0x1831ef33dcbcb19bc7fc13ed47c107cc1e21f1b2cfa1549456e61820d743806));
(true,0x2d4e97bf9b9fc981c864ebeb3b58bb2c60e6f4254e34d25f0b98f48356fbaf6f,0x1,0x30644e72e131a026e93ce7417adcfaf9fb0cdb0288a15dfcc0a231066dc0d8d5,0x1b33a1db7ad999d475e9e4212fcc967e989084ebbd2991b9b5c20583fbc671c8,0x2a6b38822c402fccec08fb29e297e2f1f233b44ded3c872aded9223436c121dc,0x12f340a940daf94b288e9af67c919d155e036a138e246998399b0d4f564e4684)
].
Definition g2_steps : list (bool * (Z * Z) * (Z * Z) * (Z * Z) * (Z * Z) * (Z * Z) * (Z * Z)) := [
(true,(0x237db2935c4432bc98005e68cacde68a193b54e64d347301094edcbfa224d3d5,0x124077e14a7d826a707c3ec1809ae9bafafa05dd6b4ba735fba44e801d415637),(0x27dc7234fd11d3e8c36c59277c3e6f149d5cd3cfa9a62aee49f8130962b4b3b9,0x203e205db4f19b37b60121b83a7333706db86431c6d835849957ed8c3928ad79),(0x4bb53b8977e5f92a0bc372742c4830944a59b4fe6b1c0466e2a6dad122b5d2e,0x195e8aa5b7827463722b8c153931579d3505566b4edf48d498e185f0509de152),(0x198402ef92396e65c4ec656c73adcc821a22a799551f5341df84cc2bfb8d560d,-0x30a74d8a4c7c732068e9b15a0e384fe72c67559e238efc86de236e5566828cce),(0x13253ae763aed78183ca7f4e26798a9f66af87daeb42c29c414d5d89b6d91a03,0x1ac5a984b13588ae20752a246f497423bfa31fc3a1cea24f7a85ad571cf7fdaf),(-0x91bc9da82ea428b0c63000731c0055f8ee09fe3e2855df7c1f83bc007242e25,-0xae26827fa10d79086326cb4becc548ae508bd9492608640d8ea0348f9e3341c));
(false,(0x6567a7f6972b7bbbfa13123614ecf9c4853249bb5ee22ba52a7ed0c533b7173,0x899cb1e339f7582c42d7517ae6f59453eaf32c7cf422f26ac76a450359f819e),(0x6064e784db10e9051e52826e192715e8d7e478cb09a5e0012defa0694fbc7f5,0x1014772f57bb9742735191cd5dcfe4ebbc04156b6878a0a7c9824f32ffb66e85),(0x58e1d5681b5b9e0074b0f9c8d2c68a069b920d74521e79765036d57666c5597,0x21e2335f3354bb7922ffcc2f38d3323dd9453ac49b55441452aeaca147711b2),(-0xe37aed2562e8f36558cb975782a7d2e27b32b4bc44248b572d724d555f9562,-0x3b1ac8ac73413af6752df41d661df587815a2251f88531fa4fe7672fbcbf2aa),(-0xb2d5a836bdbdf6c2714d155bc715f5677cabf7170bcc2df591d531574718da,0x240bb3b84b38c5f32cbc9c55158b9e9c4710b9d5f5ec084cb6639083f847f2c),(0x18f132590fefb922773b5c779fd690d84d4735437de9ba59d8b5efab6dc3259,0x8217075e49060ea9a5adaf8d788e61defa3c886131027c791c272b8e452bbf0));
(true,(0x1e2f561324ef44479ddfd61d289b65a9b4254476fc23a674d089e9cfdefb1db8,0x94ff1987d19b62ccd852893796296e4d1ed330f67a6a9e31f6975b220642ea),(0x1687f985433b446b85eb6d0a574fc152f681c032d27e6207569faca9c8329b96,0x1b4b60273ae700a7e2ffc04e19e316074a5977c8da56b75675927e2eee23772e),(0x24fb6baf4cf6d7ca7eaa668cda36d088502b3587667b6eb8f2b874622575e586,0x1e7cf2fd8b4bc0d81e4719f009a5ecb7d925c970bc57889f3627d86629dc31d8),(0x14a8937547eec07c38e26d7facbaef3b261a31ea00f2a6180c9f059eac454838,-0x93c63827e956e095c09ddb78824f2f6e62428d51d66cf2eb89492c764f054e6),(0x12d237115109410d89ba2cda036854450d2a2b0559ea75e3237d5564579f9c44,0xb9e051671832130785cc09ba2535ee6886d1004bb34a8f21feca41fcd49298),(-0xa2946a29dbfdef1619b231499ac886e6358e5cd7b38a3833f91e380c86e4f4d,-0x731954b7563d6f64f48c68fa7718c71464e8b1d0e72f650d4b3a0252e962774));
(true,(0x21bd26686de101ccb0d9366e58d0ef693073c35ba67a07e550fecbfc3168e38b,0x16e9c4f4fa600e3b6c061bf10ca87f272b19ccacf616c4c6123f22beb856fd4c),(0x99ece5fa385a639dff850e44c21126247b71082b0d94ced9990c4f783e78fc5,0x486687755ad3e809546dbb3d53487dfada5d1130460685d9fa008b0854738c5),(0xb6884e5d02665b86897c3c692d952ccc56cb84bc137759311bb2c2c86690cf,0x1fa69c987c6371ff51704116523cbd21059e40d295eb0f4e2702ab556c5eff3e),(0x2568d386dbee280616d3e2e5f8c388c1e09047c1e726c3bf5376eb609295f27c,0x148e44d357b49c8c7e10d7a88122a6ae9fb253af442453f473a01b49f608658),(0xcac7081657503f965e2f25fb8dd00e09476e7311cc365d709ccde75bd5da448,0x1ff340186f361afae90887c9dbd6e995a859dd67a64cecbdfec32a2c06d73ae1),(-0x1c79a391383c48a6f67275747c529c24b6eae98acb7e322f0e3b00bdecefdca,0x15fcf06dce7000f68a4087290aedb2acac057e75651843b1d5181ee16e7efcbf));
(true,(0x22472d4a5b460e7860338bdaf819bc6db32347c0d8440fbc695972b95660b076,0x93b5d8be0f6817f03c15968cc91730a4ec4cb1d7ebcdd4f2a405cdb0696caf3),(0x8e8a65f03a6ae89c17963333b23d3b6c91af15797de53df20163c1ff2dfc9ea,0x2e46949ce9406d5b353ef50a877351cd76068e44ccd5a800697e69e3a85cc68),(0x16fd2d2d4733a0658649c3cf8af764bfc902e9efd6a18801340b5e59aceb250d,0xa3484977cd078268192b05209d86d6981a0c89bad8c9f5b68b2a7c18385be9b),(-0xf88cde57c685040a5ae701c67c4791e5f19c4691051358ad686218e485d1e20,0x27b6c14a67f12f51dfdd642f58811d74f11296a1b0d83e24551146d09410bf14),(0x1684f8b59197123ed60dd7ea84d6edb0c7b6c708ca7376ea0b93050eb7c2eb01,0xd14263727d620b43a469a0b791251020411f970cfa8fcf22d259b14463d365e),(0x31494d670c45e187cdf1d42d4bfe6f11daae6c98917486c8726f9705ed4639,0x14ad603295f49d21d8b41e74d4ea410da958b7edbb935aa88eadb369f2449ea));
(true,(0x1e0936182b8f1860f569d45b3f6e9a41af4561a2d98c5e51f60c501e68656fd4,0x13504fe0ee7ae2a5fe519865420ae26abd7a55db8cdce5c51e6e4bff0e527b45),(0x12c6139524e72d33ed14c64e30c18cdd8b40ebac9b00a77a7a9d160d804e5b8a,0x14416a0c4a926e659f9d29d92273148027686dbaeaea5b96cc9a9757ddcbc40f),(0x186f0c17fa96a5540593f6edd276cc7dbdd08587a0c653d0451d040e59bd545a,0x11a93c43ee3e9d090bb2137dfc50edcf84db6fb89275184da223f43570fdc7b),(0xffd7632deaaf585b1ef0818c191644f51b0a0583dcfc69cff78ff52e3a8a382,0x1bd2ed093af6ed876e962473188eac492add2fe5b1876c8b9e87b639652632d6),(0xaef3b805572fb6a0566278e6ba1c8bfc68f78cc850119cdd16272bd71a8141f,0x17f9b36fa287f4ffbf50d24a44b85139ab042f38ba4a3cd64342a2a60784f1cf),(0xce8fa76e01e93c5468c5571258af513966b674f072b2c74b2d663f5920ba04,-0xeb6dd280f07faf164361bf0246f8f8da7d1118b213eea0047b4524ad2e46a6e));
(true,(0x21c9dfcffedb5c2ca2d3e32fa344df5b9be2aeba89da8bb71dab017e11950457,0x4193b978a7fad06cb82383cb640eb0cb48afaa5a8d692f4baee39ec66930b6a),(0xf06869a816d4fbf9d2e099ff8ae50aa0d29bb419366978649a6b20448da1974,0x16d069429acc592710c6e992f2d47f7684e2472b9509a5207f6c6bfa1ed8bf7c),(0x129d2af0b2ffdfb3cbbbdc6ec0bc5c930ac2264b07a95a8d112fee282435e4a7,0x1abbee460a1824988553e8a0eb6f6bf93243dcf55c6af34e75a526d222420d02),(0x2584e1a728e5cdf1b69302a395f5deda2d9bc9bb6127fd087d127d05c43d4c81,-0x2978044cff2fa95410ca9aac503e1d8ed52d3411877ef049fcd5754d33ae718e),(0x173eba3b54c97b79eb4316aee624fe1732e0e516cb283ffad13459413bdc7833,0x5b9359c6819970d828121852368a77863637d0a17eac7b45d74a50a645d92fe),(0x2d5761915aa63e07951c4069a5c759f7108103582d62ec7bf36888d719b6e0d,-0x178117a2b5d7b9ff30261804ecaa3a942660ab9f2f40182aaa6513402c24234));
(true,(0x1de722ff4ebe811a462d78919fc0af9347db99539f4c8a17943c2d70916a6c05,0xf94489cba438a99bb8b60e345ffd817bbfdbc349861a949b68ca3d1dbd90056),(0x2d40274d5d286ad62cdbe92853c7d10cbe8e828085be2fa7fc353414f521f96e,0x1c03597ce6e106a4588bf990d8ac6bbeec69ffc9aee644431d9538cefab72756),(0x105ada3a5526ab12ef393457ed36d42b6db5e3bb890a8f03c8f82556165c9736,0x1673a954831f5bf1381face112195b64fc22b7098c1caced6b89a04f6d03c628),(0x180fc00aedec79c059cdc5c5cc6c597e02fa311713a2beced0fdcc2f468b11e2,0x285cd045b42d4fd7122a903fe28c9ef71d2bb77348831f5bd2e19e5d631d998),(0xd765f3703a03313186d0a6186250d15abc2cdef5bcf84bfadb05ed5cd28eda9,0x1340fad877cfe55dd216f9a2c1c09141aa1a1a1f147f450eafebb2d3c4e7b982),(-0x1100d99205ebfd16fcda5e8440e67d99d7ec7884aa0faface78c6bfd7d6520e5,-0xcf17a21be98a28c55afde7f44fa2a8b3d62eac317ac0ad1f68fd51f6fe60058));
(false,(0xc22e727a785cdf6ee9de9baadda284929f3f29951e793e9c2704836c83e5827,0x4dc31651a5e278f98d0e0903d214197cce81bfb5076703d4020344a0b3bf116),(0x2fb25cc457dc0cf1954f78b36c84d1d698d0851edfff84e6cc76c61ff56d2b78,0x2a4f2f817f967504d699a005a9a95cbb8aa0899914d9e27b917a84c683a196b3),(0x30258c78054d8a73b854fd6d8848b11676cb208eef640f7cbedc8f4fa1610a4d,0x816d808685088742f3f9205bbbe9e340e03999eb0aea59a3c44ae09eb05f911),(-0x514fc50c32d96cfe3875013aa86edb1dd7af4c5a7ac106c88d9206172fe4305,-0x2bff9850c0671a2e7055aaa2627a83a7c60e399262d8fc8331f85cb584b5c03),(0x28e3b76057ceb534174d6c7bf6b42f0f3bd15f19d22ba2b1440ace88da2c6f6,0x27011fbd56dfbffda472402f96d1136ce15c38df782d732d979234124900d4f),(0xd284d371eb1becdc1d43c9b4d2ecc406d63bd6f49c8cad0b5e51f7d92068e3,-0x3d4c0ffe8a85d4dbd49c3b62726ff56d2da20e87b2361ee82d620ccdb4410c0));
(true,(0x17e47a0251a781ab329aaa35f8768aeef4db1f5cb0849012e7e03e4818a21183,0x284f3eb073508ee084b114909fe45b5814b11dcad5245223f99dbb54612a6cac),(0x9efbc4f899b31cf23427a065dbdd3cf20a7b855fce6b08d6bbf4014f28f80a4,0x2ebd7dd93aa39dd4a9b282b46e95673bba4889fa92d17bfb02da8d1ab42fc301),(0xb496bf8d226b68be0fdb573e07ae8ae497b21a0e7ac713b80ea7892e9a80ccb,0x1db75ac2c799129a0d74e55dd4ef28cdb2f138b86e9053b7af068b9f6b3a594b),(0x40174c6ad59d194f2c4d91a8b5ccfad5e4396e27595c3e321a7d9d722180647,-0xa202d596d78d0e213d6a85c0412ca664db7b4045316592c0ab8a8ba5e0c8d7de),(-0x15c7dd892097e7795597ca1fcc5368f75efc6693aab67d5dc43caf7b4389ae8d,0x27cdd69bd9818d79f64aaabe254582f66af6507acf72fce2cf39cd61de1ecfd7),(0x16558f35f14dadddbd761995dfa48c05addc4a6fbe93a387ec84a02ed45d83d4,0x1d44179313b63d7de4666cbe0265e625114c9cf0045dd6ad2cd8d5cb70c65186));
(false,(0x294455d30cee934294e4543dcaad73897a4c0e1c3eb9fabda9e2b83115d2f596,0xe404f3136bd2a89cd81e7ba69ecb76f870bc7c3973bd4abd9ae6ba9249b63bb),(0xcf1c7f2b949e98c97cce021c58ccd674d81e1881422c10002306e4d13177399,0x2b7a4837f38fee9fcd1de3cc54f51b767e603b9bf45e2667156707fa9fdd2ddf),(0x29f1a4c51e817f84613548a4b82e73f9b2b9b548aa0546943d9b42cbae450b74,0x27e271af689b8c3110520feaaab91b2e6983688c74267106544a7470aeb75d0c),(0x123bf4ca13fd0e1a5a5e1ab4d0892440e96dbf87c8b8972f63c431646c7f40b4,-0xdebf5f4751535b9ae5fb02c82f3305e6f1a1080f1f01efe879b5a85dcfc0ea1),(0x1efe800423de498d7a7b4917f3f21ab9b2a146dcce0317e56fda9ef2d6a6dd57,0x184e503f9640c4a09d6a11bd2e167602b27ef25aece44c652c85a9b03092e36e),(-0x386a299ec2683bb963187028751f21cb572bae378cb0004a26aaf9798368dc5,0x1e5769fa6694c0594e31dd9e8930ed0cd4c467bff60c1123c77cf22689c2c72));
(true,(0x1dde233798dc7afaca57d035d7ba535139b40d19675d27709958efffa620481,0x239ff9efd6130c9e37fcdd5961e7e1bd14b142c69aeafcfdd4c210b63bf214e3),(0x2109bd2b4b0f4d6705bebcd1d23ff6b83d8644e42fcd6301cb6faf2fd8065155,0xe7542c6e8f7b73f1bc7815249cb39abdf969f7a5943ebf0758395ab37052413),(0x292fb5438f78729a9a9df0709b476d1bcbcdef71a4bae53755bfbf252e4cdf4a,0x201d9d6213ec90fddfe21eac39fd01fb492a1feb64d7e7986054e4ac4780fb94),(0x334fd64e6425eb9308c0891699bf15521d6d938af4cd1d58fd32d42cd50d1b70,-0x4f2461b7f27abe2c6013c312ead0842fe20b4fab8191804155ec8cb44732056),(-0x1a277995643b1aa3dc10bfca74cc457d9e60633467f720d1805d3eb7d506d439,0x2bf9cf16eb4928dd379ef14832223574bff697ac0fdd98b8f349cb90e92f9e3),(-0x16237facbd0ef881b33333df49e149f20490e23dbabee2556424368c5d458db2,-0xdac4834f0988e3e1172f0170e093575078adf3365bf8bf43d98afb375646938));
(true,(0xf825fda1e0b6c6591112e9fc81072f113f6099aeb8c995c5a39d6e9071b3315,0xbb0242a4acdc8b2a32bc47884dcdbd463284021bf35ffcabfdc074db0ac73bc),(0x1c69a84b38d11c5a4480dec3323c9cebc3007397f19821a32d7981ae53fef936,0x29c8317e355d4539d94927a4b6fb66ba822f96d987ac3a96b737d195c099bec9),(0x40b0a7ac440c675fbe0bd4241b3c9883330b0dd94aed737f671e693d452cb6c,0x17494a84bd7c4ba38731d3a623017dab737213e141bac8e61d25563f16658195),(-0x2bd272ca8d2e0499e93bb8c144a9897c41b972b18f7cf18437c32c3f007296f4,-0x12be5aab26330b68ef6029f9f0dc4082bf72ec77f92c935ddf1a9d5acb8ee10e),(0x225ca2bd4504764087457405c9ab5e0a830b840420b93609eb61a6572d4806f,0x77deccb3b298a3515d7297590b57c29250570ca28780ee87da0b38b067f234f),(0x814f91f8bfc72f00959a9b15e8ba67b9b44e9fc141f0969c0fcd24c7f8f6a1b,-0x7a3d761810c71e54e193fbf563f980f72637216e49a486bd51e0fe94e708e95));
(true,(0x152f90c3ee2f4be6e0d3d57d5dcc41d4b8302d723b68205222903f142a22d61f,0x2398a0233f341becdb37755cdaa1b87d3954be770970fa4a9c13e85b6a7e8fca),(0x7eb841c59b0f93336d9fa435809bf930f005181eab00c740e6133eb1329f0f3,0x29a2fb7f2f067a2806905edbf1eb883bb8fc466fe246a9f1b4ca029af9bce6ae),(0x2625747ec17ab04d979f3d7d1293e6c861501688bc426f21841a6d2f996cd8d5,0x362590d8cdb1d559facd7c834f9928ee94d2ed51eb444235e88442b10e883aa),(0x1b75e6da4c348a773c6756f2c464936eb1d8da1d035f358a543c82a2d1be20dd,-0x78da859217a78cf5b5c7c3c9d60e09a48920ff417956a440e737b2682af66832),(-0x10e8ab5635a9e47079fb610d321e837bc2bc8cb119dcc5409ec33344cbb8a9ee,0x1f2af69c9c8f036dc63016371b96d842c3a318edd5223c69c4e9911a650ac9f4),(0x8dd5fc5c7a9a345dbef118781b7758351ad831247ed87e31f191c04205d6f02,0xf234328d56b9814d6540461b580341b3ffd4bf6de48ef6c3e31f233495de8fc));
(false,(0x264d985979a3e1d0e1e46b914482731c18a0caabb01950137d3ba1553de9cd91,0x2208f20915724d4d6df91d6f7c9032bbc6e2e38bbc79ab3d32ebb30377ef6411),(0x20ec735be167557b6cc15eeb99f54d242f1b69f379231959e4f0437bdf517dac,0x1e9a65223d9fad4e6c746de74bb4c8288c4a5f49b82e2856fd044f5656ddd82b),(0x1c2bb1e6a29b577f677ff464f8aa9019ac4a5ff6cc04165920d88376cbcd8b3c,0x2b068791651770860e79db7d4353565e029c41eb0d7704fce6d2667753e6e39a),(0x180a1eec8440793f458c6355ed4f0957880fb48fbff0c6128b98989465d04e87,-0x16a666717dc6c293e833ac1fcade1ad39e216815bcce0bf34186b950ab8d4a5),(0x661563a480bef0d986392875b01ef3a4e656b430ffd216e2a6265fe9ecca0ec,0x35e0f1f2941c30ce73a583c0e4f1dc612ce6ee259287ba80be219808b5fdb6a1),(-0x1b8d0ef051f5560cc89f7b753ea5834b0469e68bfa367767f9af890a0d5dcd8b,-0x8da302cfef293ccad5c5871e4d9c7b487c4c1b4a238774b1aae5d078845fdd6));
(true,(0x2894b882680624a5fc7b64794507cc1f7f615e3a93205402e79056a0f0fef6f0,0x1c3916f58d5525f0271daf718d9fcec78bbb999718a45642a77944ef1d3d4803),(0xb4c044c367c188630b7b4c886f88810019eb25eab98ba8d5cba11b82088b61b,0xc808509145220b5123c0da0adad267a8538df0cfde903947b565554b07c57c9),(0x26ca0c339346b10d4f8a70ff0f3d659603cb78a8fe98f3271f7183498db84f09,0x736d1e9f40dae12d02e538ab746e1b2126ac8f237e8b2bda05929aba02fabca),(-0xc13fc383ec7891727ed161baf905aa3f1e2082bbba7db3081389486a91d8957,-0x13e7ae0548b145e2545cdd442b94b5ac4627ef81166d140977625a22fa93d350),(0x11921491425095c376061aee35800c2da73496be54205c5f8611b2241d2b765c,0x2f55c9df47ada91aa5433f681c28029d724dd6411e8b0105961116e521f58ef7),(0x7943db071aa668202466d5e3d73710acf9e1516fb0cf793c78a337fbcf4b7d3,0x1bcae05742e29e8166d84a488a5f53ff44f3b5e7fae42aaebe4106d631ce6ad9));
(true,(0x1b4124d6fefd86217f9af4234be61cb8af2eb1b89e25655c38719cad4f2a2341,0x2ce5ce19b5841d42e2635a194d0df81c947d263760f6fd6152f1304fb19ed852),(0x7d63e680e4177cf1929e28e9aeed397f2d2fda3b7eb33f862868818d6c59f76,0x15981c04765f398a2889384f5ff1a15bf3133c5d136a4bde516ff145545fc287),(0x126c31a03c523d1731ec17e53a9f655c691636d101b5192b785c35db42753878,0x2e4cb239daec1b2a0f20da2f15792fde86372d95441d631b273adcab08c4bc1),(0x2015822ec6194aa203e3a1bf8fdb3ab041bed6e2fbf54a2732fdcb01e947865e,0x3e9772a6e50e86aab608f7e5d6ca537dc04a0229d06585b503eac376cf4b98aa),(-0x1a4e5604957c9807dbbb78739bea27a1d9ccce7b180411dc429edf3fd7b63099,0x3292b6dc475363c8a372062607ef0bd6b862ba84bf34643c3533eab51c27099d),(0xa626578d98b0695460e8a81499965ca6d95c37188a1f9014d4cadc3452695c0,-0x1e917a71abb1ea2e623ce45e529d56608a32266938d15a53b92a9b92efdf119));
(true,(0xb28fb3f5edbdd5c5cf49765c0000a695fa3457863f4b92adbc1ffd91de089d3,0x193e3b93617eb012edc71ea26b5caf5e710c116a929737181edb7ddd95a5dcd0),(0xdfcd57c6da7f389e36a866b8a07da254c062e52869a98a89613e9726cdfaaf8,0xc541e3f7089388f377d3a1de18f595414cfc32d56bbeb4e9893d2ef767e2c0c),(0x20211d334b3ec23b8a5daa96e08f3317d713b30bc46009648bc2c6e54857d6d0,0x22f4a472161f45ce8d6e015af6ad488a9070e0434773943fa9cde50525ceab6f),(0x1e943f82aff3a9e11d826202f46e6f3452cee6061d9ea9b985a8d9ac8a365c31,-0x6d8f4c9cda12ec47e41fecc4e0a460f0964ee16f8c6c5f4b2df7b02b01731a),(-0xa98151cfa731e0ed03cf6ac807f820110ed62bb70bd7b44459be0a227916aad,0xba4a1479f99a14cbdc99222a0e8c0f4984873306ae969c7c00929a098572f0a),(-0x64074a2e0e24a010874ec9d28d63ab6a3acf77b7e0c4161a2032acae8ed36b2,-0x112578e3bc855b26f29a27e41de9cc30698479e6dd873c2bf10c91c4f653999));
(true,(0x265bc696ca35c5d6f46cd097c6677327a6962c90ea4a3c8bd982af3bf4edc5e0,0x11c2751f5c58000fd381c07195041bedf1f40790729054b686d34a1f1db33f21),(0x765f3eafcc6f51500af58a91bb0132f5275505f511247906fa9f3c40f11a62c,0xb07101e24e0c781fee68d02b1a020632e0d24855d9e26908e4e0194cddfd970),(0x2653c306b7f545a48f986840d9021502f02acad890b2a78b8941b1c7121a42bb,0x14fcbd786e7c1176cacf5941dbdcd93389cb115b86934393453296c44424a6fd),(0x1692633d77d6a8381c7bd701c5e8ce03a74e3c27369c004b826506159890361e,0x399e11aef8c6795bdb2b118f6b665612cdf21b42666daa90984aaa12c7bcaae0),(0x17e342a8dce6678002ce30934db896071844447a502ebb9cf8019a883a20b2c5,0x1c27a27604489425e29e413a409bce63c74856360ee27e3d66f81ce1b45d9808),(0x4bee6cde07613bdebf44fd8e8c56d1e6ad3921b179728f19f625f68c23446df,0x3731460a210a6ff399182a77035990a8cf82966acd8f5b716fffb209f2238a0));
(false,(0x22c64245d9f3307c71f2409fe10228d67ef283c181093b129165600ae99e2147,0x249a6dc882b5bb2495152fddfddb20fc33cd5c259ce81658e52f475d9cf492df),(0x18c7d4fa0b1e690510cb7968fe4cc068ab94fd55bf5e6fc8fed6128e4af5b4f3,0x1a22e49089c545fae85c2a4bd4894e7e65defd0c4e6efdaee365996b36f5346c),(0x3c2fc3f572278fc94288f3dfef8280f7c4f21661ac72396cc6e6ebd1257c873,0x1a89d29e17240dc6b0f54f30bbfd5bf5b73adda69c4ace7f051552199f330b6d),(0xf14d9496b542f4d3330c42c98b9a208dfd5e3bb1df99a107a06370300d0a86,0x170036bc62e91e1d7e946963166bc039ac136a25ca663b3e482b1aa1f93ba609),(-0x2b28c5b1e9be5eb38a1166fc22244ee9bb84c010d699ef1b8becb3f20bbda84,0x349b36a25ddc44b3d8290e4d4d969148c93ba02ef7c78588bd6001a6529d3c4c),(-0x11017651b461318d0a9bf9c5988fe82cf635db6f44db54f0cc67392c9a100cd,-0x180149793f0680b110d6be534bf25477af1432ffb21dd17ee88ebc0b846d92a1));
(true,(0x9818016851a447b83896c95a84c774551cf3de9eba8c967554d1ad30d27e227,0x80599fcc601a9095dc6ae55e906500780cb19389d08115e9c9ed174dc57e667),(0x2a4d1ec94886ac6c3313ea0d75d153437b8491b1282b50a2a491cbe58c26f7d8,0x2d38085ef87270aec7eba608e36158fb28965305e8de3688e7061eaf3f15092d),(0x2349babd1f9b42d67fa1f9ec1ea65c28f824e779093f02f2d8912651500ec689,0x21657dba550e32ec5c3aa3207d3ab0bdc2594c922e9cac89ea669f40bb0c81e8),(-0x30a9346cf7467ddcf2d40ec83f10d44e80020385dc174a2b7214e75729ecdd1,-0x44a15d8671d578b6a06bf8ef056c5558d348849a9ea21183ce32a3aa67ee81e8),(0x8999e280d37f07db2984d6a3281182ec086758bdd6c05c2396421160fe402e,0x326ccaedbf7041a2bb246c121e8ad89524409a2127e586fe839483cca6ad23b),(-0x47432a78577a64863f18013723fafdb843c20f7b323f4bbe42fe88e36a0008,-0x6a72319a226ee510c2b791e848cd6d2322de6a5512af32765e77c3b06d64ba9));
(true,(0x25150c3bdb56aa6471e779802fabbcb68c6e4257a50a9e593cd62b77ce266c18,0x1dc9d03f6e81b331afef1c92a353592d5b9910824b0849be0011ef8e276c1a5d),(0x205d9011798e720f8b249b1b5769034fd0e9cbb3e5722d80842c89ff5e5b2a50,0x49b1a4ac6d4843618bef8b703f119a61f3da899b396a5bf1bb074360b5e1edc),(0xc672a1666b9eede90feb5aa57196c4d989c6aa493454326a9153941108aedcc,0x2f94ea9350349d6a7e07c6dbee8e6239c040d65d7a5c646c3996db4061ab9f4c),(0x1ccbecc283790ec2eb528558c25333336737a163d3c8893f6ed24c87db1b9e8d,-0x8e89f93a698e6e4fd6bdf8c8b02a42fb6c3064d01e30562a124919145f3f0e0a),(0xa143ff32784ca1921f92c7ad929e03553f068d17bb4bbd2b6d3eaa8a4038951,0x2da72f3d3033d51d1781d8c7e2e88614435eb47960388559fe5de7c00df87af6),(-0x1162e2bd1cab4f569750b05809ac8a84d807b09f0f07361ef8d98f839afc07ee,0x253cccd0372f8216713fc718fb0fc0788d6221d940d38d60733ceac776e352d4));
(true,(0x2490f4b0f23fcd70bf6452ff6859c59f23142a3efef9e2a8d4774444a7961a62,0x15b5e66eba9b2df3a76f72af832377ea372ffc61c7da54c30695a72ebd74ae69),(0x16bb37fd4a2c878ca5fe69f2251f0a803d6d51a8a60d52a00077ebeb139da533,0x15c716c85e8bf2b3e51a0ea430b89a977d33d853cca4148d55082b3444e301e6),(0x117a95d44da9a2dbaf189450f40f77a0a2c6717e76a1a2cc99b5b506d2d1885f,0x7ea36717f40d9cce76c97c672a1926b6d2f2fa3aaea650ea619c65e50af3f4a),(-0x57933ac85fe78672ea38d55e3149b61a952355f24503962001871f8d8af37c48,0x408ddadf1dc8cd378c639a4819f5b5a622df16f159756a094ed601f9285c30b8),(0x11e3e7220822cc36ae79aa6c239a5435e73cd2ac2c6a85fbc2b6363c9c1d3e60,0x20cf69ff0209fae2905fd5cf031d8b6cf17ab0183a077bfd02833dfc1f40880a),(0xefbdbc691cd5ce8a7483e85f694926fd689f8ac59b4c7c5e78c4a2c968c442f,-0x8a73ab40eadce332888fc43e5c1ea822a352dbd0f7f5c37b374ae2c20f164d3));
(false,(0x18b62780946b3b1b5ee7249aecb361636e654b0607b33606ebf5ef02a2deb7a,0x569395098a27fe1c98c735b14849dae19d6d2ba18dcf31b5079179b66ccf698),(0x15715f2e131fa70ab12514a1c78d0957854f866587b257d8cc2d5dfef4f6bdc9,0x306340ef696ff6354e786988f07fdeb7daa807e87aff24039cabb78fa2a63118),(0x196f90bece011b7bafcdac451209c11b00ab5aa802e7cad11c8c192de1f03364,0x2b412250cf5cf4e4ed138837c07b673cf7eab3ab4a4bea2af138a53abeae2a18),(-0x61c9c0b7a1994c1bc1a64cb6cb59d327db732883abb20b8bba6174d7f2be01,0x434ab0001899716f14a4e7caca5b9c1c1d981adedbb5de7587d6e41ef4fe91),(-0x8e45c72919ca05547d1a0bb126f96a470ade5aff545fca1739d2d6bcef8053,0x586be6ba6a206ae79a04567bd0494f74786114f7d3df6e7b1a1cf35058a3e0),(0x3043e588d84d67aa308bce3ce90a8b7ba174af7c3c4c4ac9283a287ba8dc487,-0xb488c3e6238a458b6c27507dccdf76fc65b84dbe008a379a1d266c8f23ee8a));
(true,(0xf7cc11799d8b072cd54051266519ca1fadecfcfb3a80caada2280dff7be6333,0x2ad34b84cf236603e0cfd86727ac4819dfdb83cd0de9f7d645d73ba0a1600dde),(0x426c70c4a8a04d7f6473930dfb8e6c312c76622a3031f566df6b1241fc546fb,0x2008d29df7efd2ecc2ab510706a37870bf39cb6e8b7c690023c3d7a190c5fcdb),(0x1df10c8b1265bd310337fd1e28d0c329eb85d7a72c6194c31869820c2597cc80,0x2b5902eb6d1dd9f93999f0cb6f7a867bd66294e68a97de8c34581078536e6e8c),(0x385e8b1fb9940c560cc1c7b74bc64bdec443605e4f6f7bd6df1ce637a1c412d3,-0x37f0a482ad7fe9273ca21b62f80dfac1836f0b84e902113854fd4df112df0f70),(-0x20f1521760473f137aa92650dc67ed717200c902f0d4a19bc5c422a76d33a9d8,0x1b696315d7de2899bf7cce31e0311ce7e4dfe889f8de90b2157b7620a9a6f9cf),(-0x8f02efbd812cd7652e04133e08c12c53557531b1e85aab1c4017c1866d0c940,0x14893bf661a5d8f9f0300817d9737a2079d67fda5ea15b5171ed196874705b21));
(false,(0x11d2089cbdeb199485715c94ff2cb9e1ceebba1ed351cbf522ed91736631ee97,0x753b458e341d9654a2f5033685629b11855ef54d3115429bc6511fe350f4ac9),(0x2be1b1174cec2c4efb1801ece708bb43511b6d10dd7d86b837ea1ec666ea50c0,0x2c5e2ba237721bcfba6cd7b0461906933c3e6ede268971f278a59e88d07f7d75),(0x9baddbd965cf55bff45d3db0912460861b217b0f4b26bcc07d0f90ac314c7b3,0x2dc0cd2e0e4b5d4bc6beb5c02c848b2b0f9c7eecf8dc93f657f111f82cd5c245),(0x84a923005edcb59f5efcd22eed92c6f0bc3b382e3cfb80b1d19077f35787aa3,0x9ed250e9dabcd37788c96ba9be4d1a9bfc7252ed7c17166898396bab0fe0ec),(0x573fc078752bf643beae7b1fcb3abe26a5eace2464f7c43fd600adbc3134aa8,0x56577e92362bd6ce1526289e276fdb5a95918f862e858579a9a1dc5136aad94),(-0xcc36b8c75586085ac3b699b49e62f66a6a157f1db7f3c6e2f291eb1b238c9a4,-0xa8eac96eaab525eb7dc38941d32c119cbc12dc780e794ef41af30c5dc9c5a0c));
(true,(0x264f6a83958323b3012afba8a75b3b6338a38ec1365810ab2c0ebc40af3cbd2e,0x2102783005f600211dca8898c27cb7eb5cad455482d17136ece71e31226ccf2),(0x124b17281ae600a13c0b2c7d7d36f09334515f092a99b74f6e97d5f266aff10b,0x2eed13b50d8609fccc79e9037f247c05b56f9c8e0cffcc00c2c03a346f9d5625),(0x2ba41eb451a525c64de91da965a3f755b8b0a3cb9c63c678bf960951168dfe34,0x1e391566fee9e170e5988dd6db364a653745c7fe92dd8647347244b5f4676d6e),(0xe2a2d8e2bf71352e568cd98b4575fce6644b90a69f8f374a6c61234086420dd,-0xa81fbab4879962df08b45eaaa8f188f5807ad8675c9df23907806eafb461f478),(0x1e3db15c5bf88310f18896fef00e29a0fcbe2e77e5301dc946760fad8a3c91e3,0x3443eb572057518ad1215e9faf7dc24efc48ba08890b255e30b3ba79a87f74f),(0x145dd12f02d5a17e670f46d8d5385b690cf8d436ee6998d523aeb562c0051f89,-0xef31be18da6d35bf3bd185916a3d8dadfe118b9f0c8b69a961a4633ffaac7f));
(false,(0xafe982584a6139da6775aeeb8904df6bddc53f6b8b816536456dd58c4547865,0x28ab83f6d45b8bc827644875621a780e18be89dd9817579786b341aa7e475964),(0x1156c074e3632f6a1c4d89d5ba35f6d6fc8751261934f89dd1cbc5f38dc77fc5,0xe8a51d0e82597ffa1ec2abf073147e7e6b765366458ed2289c1585abf65a99a),(0x70975ae2af3602137829a26ea197e938b1ec9d1d40fee7518e8426513465352,0x1a70c61f85f8da7d87768082706274b027ef9a2c6fe502b476b336f94619d755),(0x1341b0d44e454f4386e74e96334543d833232c420029b6e11126e76f134b2ca0,-0xe5c0c12815dd24d825fad15e3682d0ce57896e8613e747aa2caffeefdf2ac),(-0x1faeb0a599379d7c6b135317009a533f6dfaf4bbadadaf6463180a38f66bf36c,0x127af1adcc3d14a495b397735618d64fc7411c4f1da24e6912a27437f50b0de1),(-0x1b004ba4f3171f8c68f8cea64afc2277649dd7b465b924e30e6b63b1e47cee2c,0x828fd91ce5a541e4b77d5be5274b6528cd2bbab6213ac972980ce0771689f34));
(true,(0x6b4b58f2ab38012eab2e0cc6fec8b3632b807c9db722c968529e368003af6cd,0x2053af283ba32e7f7a74530fa91d0b0444045ee2e6cc7a3201ca32b2977e92df),(0xeb22c7819e47cde3ca012f112bd8192e9b2aa57ce4fcbffc84c66fd739ce93c,0x2f090387427e9358823d7ac4381e8fcd78421e896a4263d9a59c66b99ebca8fe),(0x25c70f53f24456c06186493e8e60fca0db12c5502cd753e84f23de53a144149c,0x15aa72cf03a2a6c021c17f0cd0e4bf1eead621017e85d0137e32c3ca2fb5bba1),(-0x26e806f430110bef6f23de823ceebf941741ed53170d6385306412b2cd5f87d7,-0xe877aed33b03bc0a662711903a313f7860ec19e9a85334e773195ae55389082),(-0x14aa7626736adaa3234d18ea9d810d41c645173c667a797c68aab0dce0ad1932,0x8f59afc41b3f19d909bb166d97c90917db416f9183562ec327996f2bc12d16c),(0x1612d7cab0011183ae81c23fe4a832a47593d66326b6a0cc4ad24d3c52c2ac85,-0x2bccae28951135d3d5fc9232276c4bdf095ded1c09f495b2a2c138d79932d35));
(true,(0x14365710109ff118a345da165af18e0317da3fbe2af6a55e8b48645c53d17dc1,0x28ca0fc38100be6ce54bd0e921755d7f2e5ed557b8d429b2694dcd9ec5dc015e),(0xcda9929fa654a9ef52b806e87a81f947f3991f0d46365412a53e1066a83acd,0xc19c14e9a911800da830ae7daa67b232149acfbd1159f4a1a15634c4e66252a),(0x23ce8acd869aeb71e0a24eaff4af2bf32115c4859c868a2b758f2492d0a770,0xafd439d4923e309902a671c39cac171866ffc6f6e299842833c00b3bd320305),(0x76cb6f688036a210b4c5f8fe51ccfa25d24da7fe5641185014a0992509bc6468,-0x3eb8cd26f0cf860997dee9f6d11a6a2acfb25d5569b7887ea48dee933a71c32),(-0x19f05cfce9dc2455ebc82f75903b1ab2d2ea749dfc8a6d2896443f63adb92178,0x2212de149efb75702c084269ed77e512f9a7562cc7326284e57e5e2c585429ba),(-0x17a4c2d45daf0366ba47c3dd56352b319ace8b177f3497cdc345009dc18689a3,0x1a4d2fa09a61748757d97da6c8ee1bd05f33093af499179f8ff0b5858a847490));
(true,(0xfd92b66d46356918cad506160a04c23eb61e7f9ff1a36223af86603d393e423,0xd0b99eb7689a2c5491b556ea3d2f02ccb0c011c304b40779553b259c81c941a),(0x1481886364d864a021df926cd1c5a47d8040e69e2cec3db2afde85b913a6435b,0x2ad4c2e1f864204f684e943c098bfd468ef035f3122718a157273413ab5bcf50),(0x23583a6f209fa25567b94c125db6c4e0830f351635f8fc301d3791c0ba265a9d,0xf15c3a4e57f243ca9cd5d70638a2436d0153f5a6a23c7ff835443b365a52113),(0x33441008d555174f9d9ad829506ec675a264646ab75c2e2e5992226875ba84b,0x6116e8c26b73ca54bb7b1d9e39783043efab79769fe3fbfe4dd13dd36aed81e),(0x1ac7182c9b4a7fd77af83991c339721795976ac09f4fae851ee2c008769bd50,0x88b70395d20c11b367ec85fe1eb234cf084ba0f5179a9d5ab47d89fe9bf7ac8),(0x1d4e55b0b43c9caabfbe13559a90d132ba12475ade1ebe4b56984d8148c50f3,-0xf6027a9c71154cda08fd66f8a3fdfb8bd755887a8e116504b0257b9c549df9a));
(false,(0x9fea81ba8bfe430322ae0fc55d79d5cb8b0ee001c5eb15472b2eac1b55ef250,0x28be03549e23d8c04231cfdd730d405a33d2968719d2fe1d24efe824c33be3ce),(0x2d56d1e9a856f8be11ff6e2331178a68922b37f92a653ead8d220e25bbb1f19a,0x29ce0a6b6952c18d6da98e3467cd85a8ff596f083caddafc633749696e6b652b),(0x241f95ca8bec61632ac9102cc017a1a4e602106905d416f4d65576f4e6eb205c,0x2ae0b3e780ccb0701c8ec6301ac4be6d7fc10718656985599bc6a14665e91ccd),(0xf4410a81b84e6acaa313b3591254ac7d5cf621ac1fe2e772180b46e2d5ab5f1,-0x9f8af3f6e179c122215b608761a271d9c483926bbe87912c929fb40b687374),(-0x203cd1984612f931042c2c612eddaf99c7d9d8af6c4df1b8cbb129307a40492a,0x10d4639dbf2832193dbc2548dd01f3b7e884aa59bfeb06ced1adf75f2f4577e5),(-0x5fe36642a013dc4cd8bcd449517ff2f162e56514a882688f83cc837e34efa99,-0x14b21754b31007e2e194a9c7039e7e35178c8d3614d22bc79501ffd9cd02acee));
(true,(0x18a9570ee12794474a1f7249f6a7b20a2e269d14cb733d530d20068ce9836f1a,0x10d2b6dd48e8d2196cf08fed0272331e43cf652591484c0c0586a1fb068126e0),(0x17b69a2481acb7aeea0c360cbffe4061818932972016dd254bab7f7f7873dd48,0x28bab7b5da7d9724ae2c9637811abadc664549b4db9c7b5c3fe3c0b982b34e93),(0x207a7dfb247f34739528e66f7650b892708d28247e9201fc202dff17cd2de2c7,0x13234c9c8f3a9e90e896f41c84f377cc1b6948184d0d5f8380ff2091c4d90a90),(-0xc166999c317f484d185f230b1d059df9a9a54ade23b1cf6c99c09fee6a1b7a7,-0xa62fedd1d99ad5a0e0f67b34b564e90cebfbbcbcf3d8f09488337a890909caf0),(0x6b83578bc375dc39ce8eee8f4a348280b5612a0990678de9578ae2273649898,0x11259558a459df285ab3840ebc58112313cf0a9d74bc707d81ffbedac328de31),(0xaa5a87b16fb724cd089a23f88ae4ef842fe8f75bd07916a11ab31a9417b7cc7,0x810f0cb16d853747f92aeab398c14daab54d9c1f14c24c3f0690589aa137f15));
(false,(0x1705866444ae2e555542062ed363dbf4e37284664c8202840ffdfe74c23dfcbd,0x2c7459c689b0a6e42706a43af1025dbc50d6f2a7ec47d4c171cc7744dfee97c8),(0x2f264786aead4a7967df50192a877c2248983faccfa388d4409e64bd95bd3881,0x26bc605c7451c6e19b07abb88d9916e239d46c2aea0abac44dd4658e1f6ef9c2),(0x15b9fd6d95f94f9c1ed3451e4b23cd464eeebdc46b878000413a5de3df7dce78,0x251095680e509f781c1b8e1c4715a490b3c35d78790b32953a3c693f8a437dba),(0xe13722b0bedbbb7b260e5530c11512fed4e19c8bb13ce2c4588a6f130542f1a,-0x6f39678fdc29ae84f947f9ef455b1406943a87b72887ada852705da869d9050),(-0x1de2a9781631b104a96271186f28ca7982edb79c5dcd6fc91d50baaed82b81ab,0x2a4c03b67eb3747f47c4d67a991f6eb11373fb3f5c32958eec38dbd67b70447f),(-0xcfb0fdbf4b4184978fcb1a6076384f59c8548ebfe9f0a4647ef7731c3612884,-0x1494bc8dc4277607ccf2d207c7a744db583842038fe536c7163c801390bf30d3));
(true,(0xc837881f0b25f47c2347f1f8275ba5a591c440bf57a0600ec4686ace5cfc96f,0x63cc6593bacb8155919f2e7da6a876ec7d07cf89c16bbbf85594951231ccbb5),(0x62ad9b689625bc01ba5c7be6bd21bc96b35226e050abafb7fe990377ea080f8,0x2a6dccbd01a02b5f8a4071c9e50b60e81457ebf4c085a5e9be548e0b3cc67c5e),(0xbba93654f365ab1c5550ae891e82fed2674d27e35bf6252a597fbd3f512e21d,0x676a219aa72004abb1131745f56edfe4c1383ee4b072c14d4aa8eccec7a665b),(-0x2b1db0b496c84188440c53e7b1257d8c3f5946f735958687847385568b5f7b3d,-0xc9adc310cafed0f281a4b9bc0264358249b37142b7fd6b9a1e1d55f928602bf0),(0x26e90d354e68089190e5eb386dce85f8a661a9d285880c77def1b3181bb2f62,0x339d080dcce3238973bf166ca426ba13b862991a8dcbd38007c222faa44c04c),(0xb12d1d0a923b5657afbfcf7f5058b5b9b21ebfcf1061f27662c06b6aa2b4cf2,0x453cdc7e50008887d148681d18bcd4e06c983c7e325d9379f7cab6adc49f3bc));
(false,(0x1110f6cf6698ca1e0f12e189b77e3324ebfe1ca58c2467426bccefb5325c6b00,0x10be897059940ff2e5e58dad6b175027a7df924ffe916ec87dfced9be4a14347),(0x22c46149d7639164abb5064caad3205ecaebc60ca2509ac79d209e34ac44ad4d,0x1b116cba32cedbb0e6afc2ac5eb2cb571144279ea9a8c9a01d3ffb707edf5076),(0x1f0c7f10241727bc753e2d99070dc9e7c290b707941cd6879f0d794d39e36f37,0x2b8072f973cad8e671ccaaee748891f264d4bf36ceac7a16c4d6f21a86397b78),(0xc20ce5acb2fd9c969cca4a1b5d96fc0ba46beeeaa6cf20c9e037530e16c2811,0x38a82bd664fb5e4d015927f6d4499c2551a8376ef121f74a7ebf6ddddd94f5),(0x39972c2dcb55e6c3d0cda05d81d09a2a38884da586936715814741a257b47b,0xbcf73be6688c243f5965beaeaaa8149d0db55cde1c4d6602e023d222adf7f46),(-0xf66bb5b919a852be6838eda990910c73dfaaf94974fe7e64f6644a8214cfaf4,-0x47a886d609d6e662e131039347b5a7d070c0d7ec05d189ac11e8ba5b3c1436a));
(true,(0x1413a17b613ce2d565d3ccc7e2b09e594ab84ecbaa506a1a3d0b196224f06c7b,0x25d49ff63a83e53bbae1df01780d48c6b23d5f2c756f26eacdb4d0d4e275577c),(0x109e2df14b4e87dc46aa8635fa5b7b791236038343cdfdd86e3611422dfca3e8,0x4cbaab0ccc3a0eeb4447108c072628010271736a0ff3389bd4ba11514989df7),(0xd65cec7a1ab89e807cad61e7b47bbbcc93f10c4e0a279f591d5b978f291a11e,0x26359e46a919c92c41fd62b65931ae1b7116678c85eafd26df4d0351ba9980e8),(-0x47c41fc9f877ec1d8b6751c5984219fefeebc214c34dec81438731610a40bb23,-0x200a96fefd881eb6f57556bc61f896b883059be58cdc55318affff45548a76c4),(-0x153eb08c0bcc8398932e5dd07da7b8cbfb927991b7deea798ad86d67c216fd3f,0x1f63de2475069b0970a56dd8eadc3dc46f107af81b754c28a61e0a0ac6612a13),(-0x9e1c67837bcb1a1fbc2a3b00383081eac61858b40dbe96233c028241016971e,0x176db94a3b12cb66a8e9405e73f73631a8fde9c2d3f6a88790f445eda30b9567));
(true,(0x14a3c531ade9d0a9db6535ad0423361454b0d04cc2a3abb7c9bc1dfbf23f462f,0x151c23d03a94dc8d3d552eceab1e2cb9e3374dc05aa69f8234ea21d7ca6f1462),(0x972964dd72c5f7cdb6e22b642a9d7f886998aa3a93d5badce98288aa3b8be89,0x2d8d652fded7b5fb13e2e58a5f4ccc63c81c084a73b75b673c24efe73e5a0bb3),(0x33adda0912d7e6d17f67461ea7e71acdde20d371a4052d296afab5f65678ee6,0x21e0b07758fbf6c0d96f61be749826bcd676f080125d9bb4b1b35bdf6e9f9306),(-0x259a0cfd0254ba675ccc52a7751347f6224cf18152b4b2165a0fc9fd0b67e2cf,0x2266d3e918fd8912bd5fe44eb94cb90f93a2fb10f5e8cceda574147a9f46e028),(-0x67d90fa54556383bead5e96a4598c46f429b605b523bfdb7066ff0d36874e4,0x1201de6b42f358970357a7b8d034835166cecb35eef769cbc32ee3aafed2724d),(0x14d6664b1c87ec7b9136ed9b5c86230378a01ffd8ce21c5d13fd8be03de062f3,-0xe41610e1e3ae828fde79c4bf15f9fc06f5505c881cc0e33e86c0fd228d51a4c));
(true,(0x1f969f6ef50f49f904100af4183454c39094aee0f9b024fd0838032443b17d81,0x368e780f5bb195cf7bb5d2b21c2dd52433fc8d993aadf3620e964bf0938ed1e),(0x2d78c87d64b15544b065f2cdcefb79f424efc1d0e26e4a04c0dd2d1bf7df619c,0x21171342961cffcd37c90e0439492e4d2d7d673a1fc6f5b7ec19137f03b39581),(0x261d73c08dfe4c9f472b422725756416aa849bb4351e5033e4a424e156d62b25,0x2633df0afb3c8a2fedddafffb57f70c62c73608da9329991b1bd08fccbd008e0),(0x7a8c29d5453ac9448c0f48c9cf2c9ae0a542fa646b621e5acd38a8715e912ab4,-0x8ad16892f8c715e34fdc80ebd0ee433eb8cd7257aa268d23874423652b14dc2),(0x1461235de0ccb3389866c4d4b314dfc656eb46963f8493ba46c8f720d4f55839,0x47399392d3482c29d55012927a41c85b007b9057f8f05281ca944fe49992483),(-0x1864b35ae62e1722e854986b51023b2d74cb1b06c855a2d963903f8cdce737b6,0x598b520ce058da9e4da48048f34c8d0cf49bff38cc0abd066b2c0a137d2065e));
(false,(0x181604149481c77734b08446e3a9b1049462cb650722edc24ae48a1f43084767,0x2c56bfd396465973105332bc5c86b7db459c0534e8c895b601b64e07315fab9e),(0x1ad920a8dafcc220cd5ecd6969d91d5e66a0a1ee415ef89fdea5b233f23899b5,0x292749953eb0d2da2315b35bdc33382ae071cdfb0814d26fff3dd2cce2b78a28),(0x5de93efbe9acfa17e8b9311f57baf3c0846b4d2ff999c1797e1524ce1b36ebe,0x2a67da461158d9a421dfe2ca5b48b8077e4e6c363059130c7f1eff00fdac806d),(-0x3c87dfa8a211c892fcea591616892aab8cf5d9f516b2cf2b362181d2c514c94,-0x176b7b93d6cff00805fafb5dbd6824600851b917cfabab0f9ec58c15804f38fa),(-0x1ca31661c6d3ecea963015f51ec45c9a347f61677a04c2fa57505df2606e85a7,0x2c23301b88aba1eeb49ff86c01b2191bac337583933922ec185f0a7a9a9337ff),(0x10a853d59492c50657cc3bd1c1a9920951deda8e925b8a141c16c0a4533d15e0,0xd0ceec585209b9c0ee3143ba707e40e8abacda2248b1bbb75178ff5bbcdb54c));
(true,(0x11509e3e35ed524f88a456fdc7603fff586f4f371a90960c24fe14db9e78e2d7,0x157e8679881d2e1c3b404735ecd17a7fa9cd744c7f3419213b8ae4522369c44d),(0x1bdb08a621ac68b22d6e7a47f0a8163026c0e0b21f0d4399f7b0e15e13b78ebc,0x1048011f2efd7e06a9e51d55df5353516c9262421d1f7087e66ba1c92f49ac3a),(0x20fe5e357c1380a062a1ed5c5109e1242e705294b707e9cba52fac6ea6eb1eab,0xe40e765d062e6d85731f5a90bd713bd7f52d3a6ccc43b8d89d6c6498ecda0d),(0x1ad6154f1d5240d7034a48da5bd55281a6e088957b259de8668a5dc483420de1,-0x656ef4a2fad49a055c6e252b3a36f68c7468f8276d5d712ff9e53faa2f0d8042),(-0x35a0a9fc04f267c9165a2d4f2126e92ba228e31ef514a997e0dbb96e52e3052,0xf61ae161e2d1ad16993300b2e11ef2d48ee5b3a593ae94a34cdf8109cc062d4),(-0xb6871431d6620b9583554e0486affde0b6108edbcf1182c9b283f8399788c20,0x873b39e5b39662fe5baac4ed98e9b52021e345e000f1da668f17233f0e9d2cb));
(true,(0x1b7083b5eea403c7c0469eb327e774195ecb47a0cbe27090e4b5649a0e128c3b,0x114398d3526b4a31c181b5697e32289fb2001a61fa593bd9f266f227eec71d7e),(0xe6b23b9c8705f87fcd2de8acea4da04577aacb0e76d02b6f52d563a79537a78,0x1116208ad8441a6666f2bf90756aaa44a4d2502354076461d96cbd538ba3e7ee),(0x30e9d9ac9683f3ec5868c6192e95895238505148d11d6c29a02f197578de2fd,0x2ed49befdebece18b7f5b54dc489c5385d9d99293b3930b9d0a235f5143e02bf),(0x51c6f3575768418fa002bd3bb8395c4fe526ff803e90f8f17f99f71a820b1ae,-0x1fae11ba81b1e2c345f1dcd4a0bcb6115a65949fc6e5b51ccb1bb658566f2dd2),(0x9666125ebe1c3c05db3de7c7c9f4a8e33cfd1295bee8bd90926a0b2ebfd8db3,0x139411a684bda11949bc388dbc93463c1748e045169dbc10b3d87bafc68aebbe),(0x7e80d1a5bf3cccc56435c5344f3477cb4d18d060e83099f5e5bf49ae970b884,0x45652f1ceaefd9e31784d0c620d3dd75e4d89e66ce6f768bc68f0322b1ac850));
(false,(0x7597c812f4aef6897dafddffe04c8a6114d720055cbccc978977a8080deee40,0x23912a4160bfc686d1d85a8ecb9909a0620f7fb91ce985e031cfb4beb46afab0),(0x198c45c7059df550125c2ca6ca9885ae7c169d9b92eb4ab9749dfcaab01f263c,0x2707c9b314dda73939c49b49b3fd6f3d921cb6da4ffb39a9ef60182bb37ca019),(0xf36640ff680500883786fbfdea818ce8f7b16dd73109b2db7a6e41df60986ae,0xa0e7c9355de8d1c7cec81f95c30a7540159fb54668f017a27ea9917d06310a9),(-0x4c51af8bbc9471b3d1b978a1f8b2348b02f825ae4f12653ac8b057d231047eb,0x854c7c318408ff23f2f2793ca1d33d981961398e93bc6851e1c85a44799388c),(-0x19065e00101304ed57534fe02e83718eff872757c244ad9d1e3e20dffe1ea6d7,0xacdb6440a25975615f614b28ebd01ed82d9c3c637dbe97a65d5ec6289ba3891),(0xe70282743f3f2050ebbc1f6358577d04146ecfa582a2a52428218d33250ae73,-0xb833ece85d7f29522aaad5c73861b63bea4fb3264ef61883b75e6d567c785d8));
(true,(0x20377f6895c3a4c832994d5c88971b7e18a10bd6ecd2ad5d8e99d16d8f831989,0x1f2f9c0d17fb50664997b0faf846139ade7ee2a474e8572251c701c7156a684b),(0x69190f07b59954502efc7cc76d381ef9e76600521a3528fff256f320173bab7,0xe7190b7b6d24d4f48fceb1a9e8624bce5e47ea33130dcae91c162ca611f994b),(0xdd20fc72dc52c2c4363fecca2ff2ed981dfee5e00e9042b73f6e31a2747f4aa,0x1c3b6756d76e620f6f1fb8e1e8e9726a0f42ba92f9bee474314c8be0267259d7),(0x3d452883e4f9e93a9bfb1f46303a84a369f461a2ab15aee0895c46630564495f,-0x5aa2f55f1d2e132cf397db09d46a5ced8be7ab52cb8260bfea11a8b82dd4a81e),(0x159bebf20a2ae301d2250cb9d447d263998a45cbfac1a13f27626f36492210f,0x29862760d2de128385b36a24d5b59a43e5c6eadeee70ef363fa80c677fbb0d6f),(-0x3359e0227d264a15db83873499876b62dbbbee616c2f5417d87fae94a2b97d3,0x1c998cb85f2f8dbf5f1d953be0aeb9568918687ee89cb8fbe7097ebad1d04923));
(false,(0x11c808c85088c577f40d380b9e264a95e846e307ad02bcfdb83e8e08c7735035,0x2277d83d34b57eabad98a64e58b2bd721b8f4eb88739e0e28ee133b3d506547f),(0x64aa9301ea356b992722e8bb4f76e9e41279138176d37fb5bf9dcd9645a018,0x5c57a2965241e62270aeac953a77f79c04f505243dc5812197507f1f4d17320),(0xb7336ab9d44463158830d852ab3f21e180b24325db22e98ed0a230afc1b11f7,0x670025f92eeb8b0c1f101629bb3486cf939db1dc354dd6f40433bf1533f9930),(-0x18265f7cf55570392f6d768316fefa0da7f101b2963bf988248d5586741e2cd,0x108079b2a6c089f8cb11c6cfaa80efb3984771b08486452e3e468a41acd24a4f),(-0x120459e0d85afdabc3832fb4395215fc90ca2ac1935a63613fe357d7561ba61c,0x195492e4e53a6c0f0042cc93c6bd3f3e867bb925610c780df0672344fb6587cf),(-0x3e8694d910fc21a6ed98018f76422b79befdaa78f5b1ea74fe413251978621d,0x795cb1e715695bbd6b6cd707b444a3f8e52f0b89fc429449e04acd5957311b7));
(true,(0xfdb33b9cf3a0c9e3d85d65c5c0f21d8f583283522ea3d7ad391ce5ea446c6f4,0x15bf7ac2203cdbb43705e878d457325337c46647fa9aebea76c186d3797c323e),(0x2eefcbc56fa781d77779d1c43fd1d3e7e293f0ffd4da52869b59957be1b0c65f,0x2c6000cf4257000f93467f0749eba6a93d5e03b275f214446e3d0101bd2531b2),(0x185df688342b56142999c89c90589cbed23a033d7a9ee95976aa0e9596a3ea42,0x4ba90c61dfb8e4788c9945cde12ff11a1ac03f77c070dec0b2103c846ba693d),(0x3c5cdd2d7789fa484f3343c021dfa99d34e39272944d5f5496dd43285ce4068,0xe3a9bdff2bdb77e9c31cb74e3f49e0617689b65612c93ceb29dcec0442647bc),(-0x4940ca47b548235b511a788679dbf02f89eda3f7ca0ec427caba50be4c9b865,0xe408675adbd5fca714e66e03200e8471ccc10c783d6cf479527602716529ed2),(0x2192ff972b0117ecdd6c2fb6038d32bbbd2716078600ca3e59b752ea231aa51,-0x2190f9a7c379420a5e491ff2fc4194a59ae5e4be606c24fb019fbc2712b74c81));
(false,(0x211c17156c7fa2a8ab3620876466f8a66628776b50a6b58d6f9bc42c593590da,0x1435ad591d1948bd9e27606fa768edf324261277480e5f00ad99310fc221f0f1),(0x116a60462a4d50b5328a288b55f422cc77c62f8d594bba5ef5fb8920b633cfc1,0x359725dcc33d4ff355307f733e383a0b47483e5db65ad8081fb08f7540657bf),(0xcbc2a9939611a22b37f325b2c0c2d3829c312c03d8825fa8dd354f569a5cf75,0x217af6115084d65e3440b43ab48475243a9cee1492017e5748331b272bcd1351),(-0x7d5029b5fda2297352faf0a012655e554b177f245585eb0d6a4c11f1e798714,-0x1673f0106e560b015913027966851c01ee7473445a87362269444dc345a6f0b0),(0xe36afde4e0dba137195bf83d0ae78cff86f62e1704c749e5ae91a74b98ccb9a,0x1ba7ab3d84b677180654983c7027aa33b6c86f69cff0dbfe48d14b48f8c7ec37),(0x310a778fe21c0139611005baeeea53afae3e42a9594eaa6f9c733b3d08ffd5e,0x286608478b0afc8f3e2ff3037da64d048dcc45ece49b929e7106b759d79306f2));
(true,(0x2334538ac78e81c5aabeb6a6ef5fd57e9e27cb3db42d92a70faa5ad695029879,0x1f89e4d397dd5a223541f3587d47c1f05bf91b981dcc118769b7285cd1fde7d4),(0xa8c8ec5d57f8f50b5465ad54d8cef7e6e311d4f2eb7b0aec81434d6cfc5608,0x12dd90dffd4f016930a88721923f61e0a26bd35c5a899257b408ed152f874479),(0x28d0a8f8d01e067aa02ca84967c9cbea0ba5f0f2556e90a80eb38b1bf91798f3,0x904cb3140bde41d0d0d728001376649f490a204b2424330cd74a175c31d9756),(-0x2b3803b44d1542eef6c91f1979275a3c25d9a157cb95474a4b89a8ded3e05e02,0x3a148ccb0bb9ddd4b1e3b7932fb1877f64b9c1150896ee9d87822eae2f62faa0),(0x50e4e6ec257b148556f0662a0bfa52650b03ad3b2e89f88b65c4ebb7f7e02b1,0x2de34c63f4406254e2c6233d6483229a75b702375f373a2976605fbaaf2a8e87),(0x164d63aa5387c554abb252092ce526c2a4215d3db4b98c8eafe2c54ac293cbe7,-0x5dfc78f9c739f4968c82a59ebb533f27cf42b7d56787579c24dcf7b6bb853b));
(true,(0x26145cb5a8dc14e4576f4b2deec472bd511166635b3c357356ccc2842d29cae5,0x286ee2a9b2b7dc3146c5f5919bd2897f7397ce5994d74c5790e34f07d526a1e9),(0x1a66c37c27ab9bd05a397acba64041ab9511a11149294fa054293a8685c0ad8e,0x7b712b1616764cb16ba1e400117298c3c98466dbc942955a6046a5d85d9e59f),(0x1308754cae62e62aca18f035a1cab15672877c9ba2af7d1c2518f097644b217b,0xa83983311ce2ae9af856d95c19acd4fd41b0f5e05bc9d4d518f31987fe0a21e),(0x473372124db6ada65b8aa6dbb078ec4112a180e13b0a2523c85655f702dddb53,0x50db41b44bf3971d24c7c38657071e958370241bb35cbd6a710fa3f261c3bf6e),(-0x3d18e5a104669a1903b6137744d016b613a67499ceb4728897044de25f34d7a,0x3fa23ad4dc6fd54014bee0b84c30cacbcf9646f38b1fc6c7f14684962a332def),(-0x1d92b0a745ce5f7d5e1d246e1fa7f535b7144a6db57b27b0267dbba2bf8e159a,-0xcbbf7d876f5dd61114be6525247304dd66d900cb835450d79c66fa797ad6d58));
(true,(0xb81ae818e989d77b2d2b797ebc383359e475255dbaf35e85023d1ca7a0df5fa,0x10b8884e4ccc29845d3e4bf75ce7e98d7e0931127682c9d8eebf5d1fa4f908),(0x19ae2f2ce12377b6e8008d5602354fad0cdfb72d5854f2f194799fe8b8574761,0x23c6d334b66df793bd63d38f17572b957b2eaefff189b0d7f679028e75882340),(0x2976309a5d2e89932f17594c9df93c4599ad66352c16d947efacc201932a3978,0x1d391577a3968b3764abf1908dbba4a12580b9b5fff2bfd69cf0c8611f76048e),(-0x1e7fb9f02941d59fa62636382835396586beceeeebbed95fb8b32d7887bce36b,-0x143426f1f35b66a7804904c8d791c1005d6e95de2e2d3d39bbf40b8c1f5f0ffc),(0x2bc66370ec56186ebcc98567ee67e25a443a623ed23ac1d0b64b8f1a81f06e1,0x7f3a4a95331a5bad0a5d95d4eca7e9356a4eba076b98126e75252a9035ace),(0x3595d1ab5738bea2ab2dd103687e4e58b9a2db592307f5e1057ebff3232341,-0x6abe5d0881efde47d8e1b688045aaba69611839ee6378cc12065ed5f82f6e92));
(true,(0x1efa05544c97d3fd446fe31296e0e3e1ed8a7c6283eb9cd0ca51907baf8b9161,0xd811ec2b1a706a27130a1abe0a603c6aa1dd520ac6d27f7e1de77c625679b40),(0x2cc27acd439aa835269279e8b4852d55d8ebe7d59dc31999565281d9f3bc58ea,0x1b92d5cdd96013ec1d0f343870e2542a7d8c68486ccbb3f315eef0fac1bc5350),(0x2918ead7f6ff66a3e0b7dcea0957893a8b95b1b3d61201494b4777ee76dd1bac,0x4ec3dd5fa0cec2b0010e089e914e994f0c036ba50eec80e01a6db38ceec4faa),(0x4b3cbebc129aec43ae409c64bfda386308f3c51509ace99e41bd3ce7e0465b6b,-0x355c94a9699889eb8cf834d7d973b944ea426e8fc1e978076f597bd4ef5c5afc),(0x100f6bec584b699cf50aa27ba5fabfe6f7a82eac0185e8c4468cc9490e754ec3,0x1149f41ffa25c3b2061306de8b7f52145d6ec9287e8bd36d7401bada91efa5d0),(-0xe809278efdc50f6833b018f4e8e36c38390324d6140a7484cb5f91be8fa9b0b,-0x12c746fde68ef5a445760ac51f71422995eda9c79500d689ad86aa760c3838));
(true,(0x2610458834a7fa5326360ff7282e70626d8747dff10e491b3b4741fb7e0aa0,0x8b8298c2f63045ef5ed12952020592e18b5b2b519f008a0fbeba02d8d4eaa92),(0x24c799b8cf7a73a94166e111f0614c79b1be840a439e9e17f232f785aad2dcec,0x2e958de466270982b875356fa40308997d9568b2dd070138c64eac5232cf98c5),(0x21c85c4bb28b59e350a9121adca0e3afe7bbbe054e0b061194f03529be6dd6f6,0x1cf79a22ac7075d5376e7d242597b979d1b159bf907a4a99ca62df6606dd6ef1),(-0x4e967d3a1e771bfc58954d12ababab26d75bc5306bdeb9946a45621c3dfb77cc,-0x8a2f00fdbc85611c129e65effb371765c55cb16623957186b28457031e8b4970),(-0x19214acbc762cbf753ec39108d30096c885984b87c919040e5cfc6521c15bdc,0xdb78119f54612d8795e7858a94ce6a5af41fa04a43cfa25a0cbadc50ba98d),(0x3732d498bcda1f8a916776f62a5081119d97d11f88583ced8f2cb9407d70e68,0x16123910cbaf8852a411ccc5d41aaf364b14ae81b62b4968df96d49fbaeba57));
(false,(0x72a45da5f9232fe2f4d831ccc2f3c68c517f4a9789fdf8ee60ade8a6a4be598,0x45b8bfab7b872e92a3f7bdab6afd64a77cb039b44ac0f8369dc01e15cd26fc8),(0x2195b1c43cc5fce7d174a9578b91a8f01f94c34edaa6d58de97c5d54c7842249,0xb67d920f758cbc66ca2595a72c7b80db0e97347c2facb3344f62e0af627bcaf),(0x721f7866a1a3d07ef3fc799a97c9cc26c5e1455db15f6e503bf3729784c6543,0x2ef96d195715626c843923f55e05d1f8cfb4a7a2a2141c4c2c4c5776efc248a8),(0x72c03551d312803db47160772bacc7dbd7385d8e28fe007c2d6c189f8de4,-0x4438dc1068c4736b398a253075af9e5941f46dd4fdf33449d76b3f1f3145846),(0xab2360218811caf56a8fe44597217954e0422f2f4e8391b948fda5e8bab032,0x14a58b833ccbb2f0d80cb075ce2ad198f33abff790d6c8bb2a288f9596e6d66),(-0x2b1d893890e7602def8d081f11e6b0c571ffd03b5656edee1ded0082a8617d7,0x57f1468e7bcd44439e3d1670dbd490c2746436f0fd03b7bcf811c78903eed39));
(true,(0x75091302d7bd3a470556b8088a0572df74e53c886a490bf72b73ed329f82cfe,0x28e8dfb9ea5451b2ac951b76cb03f593bcfc857582679a1cbae09442d5c093cf),(0x266859fb9a6b917ea6ea16b968a27c868b3baa1ec11c94dc6e8c88665f7553d0,0x297c52c8bdf9d7a24689ba280bf9c38dc945b9c71b6ca0eb475bb42df6a89666),(0x35b5cee91748f70a2f7b1a37c6638288b26a90e80dba3e0972d8312710783bb,0x1807a6694b2ee763613922da2485ea67a8e6026ef48b9316b430520c32f9066f),(-0x8b2074831d274e5815680ea8ed579937cd42db894fc23176b15743d554320154,-0x153bd3cd895404b4df514e2c05755b0e7e9da5581d119eaf77f514dc0a5544d0),(-0x217a8c67c7ac845cb0747ea53452288ec64cbb7bd17db7047a433d2841cc27c9,0xc5e13721056164569c54925fef5e4e807b4b0bd2ad514d8e6ea57915287e100),(0x18b33b3ab748acc16184db0bd82b15d56319289ff9c94494f7513ab93865292f,-0x89fbb7baed88c3f12462a2a4c88de2cd7cc9114526fad77442818033100ca9e));
(true,(0x9a9e4c7045b5aec216ca5a9b0c6b367ea4f2d514bb3049d2a7696afd71cc4a,0x12c6f047957acd06ff16b27f22299070f731cf0a565dc94f627efb8c2c2bf4a8),(0x2230e324ac01566d7eee25db951c6abbfc24eaaf7688b4b57fd61b427393053a,0x17a387e233f46a1afde3ce133f430d5189032b9915ebef51ef8426c8dee8f4ad),(0x1d43b1d6fcc229c879f5cef92937a077d2a3dac9c626b8a22179782a2f1dd47c,0x1faebc8664ce3ec025f7d44df55d6239ac5d53ba7aa4ffb5cde8dbc55de83912),(-0x351c2110633c191e1788dfdf1676a687ee28be5fffd6bc660bc4048ba903c18,-0xc25a5ed6ae5a6157446d1735acfef94f28ee5543216b5e4e7ac4d6d48f6d253c),(-0x74744f4ae647e2352d0e31b1bd9f12045f364664a50821315fd0914dbe4bf9a,0x77fda01e160e162835a8a47172d80e4273982a42639856fbf63449633d0aa1),(-0x6df5206898389ac3b40739bb3643cca28b9f17f15daa1dd1e5b06a78fcff525,0x1dbe1136e10b21d7c690c82e3373c25ff2b6b26d1adbab7e82b820d361806cf));
(true,(0x2761beb7b933fdeaf0cd97465851cf0cabb5805b8a3313e5f0849c38f14af7b4,0x26e798e16d477c3ee66f067ac7b0b49d2dca95023a9f1194ff288ea9b051c057),(0x23d8a2263d3fb46c65ccc5ee8ed80f5340f6db9199fd68718b6854a9362034c8,0x13eb137a66d582fdbf7543f375ef5e612d8e91c7eb702e3a19fe3af9b6f2267a),(0x204cc320a25cfc2c5f5b6edfe229157d780468b7249d9f979fe86128f64737e2,0x48a2e2c39da1f88590b263fb9111350e0c03feea262b770dffe8bf365895871),(-0x29243e459cc6aaeed810f514757b44d2a74076f18cc8b653e5f5785b5008bd8b,-0x196e8f792fce2556cfb4f0098433a335bc3df85ed4049a2fd2b4944fb30c5cc),(0xc59b2e706820549e7a5682b4357cfa4470b78acb669fc931f95d52f744eda5,0x3f5277a9fb9bb653b0eea4821f54970a509f3f4883031531f67843760352015c),(-0x45693a8327c73f3b99edcded1530d7c76dc0a5d4972403fad712fc6b9fc1b9d,0x1b2727aa6ab36f2a20044b7272b5f4304b37853127a5ac7052bcbd1fd7368b1));
(false,(0x2df42b378da4e9ea5ac9f7f448054e7dadc6cdd5bf2e21ff99d1dba769e9d47b,0x13dca13e097d9bd8d2073efe70b4b70fa606ad67cbc31b27330c0679e23f9159),(0x23d1dcdc915fa26e3e454c7290f9dd7c663de980090d72f9a9ad04ff919f275c,0x291ed9b01e63f8aa6470d1092109fc0e17f1192b9797aa9645e9da873b1f57c1),(0x1186d8235b2f863741dfefe7c81a83f3766744d638b78a8f744af262166dfc69,0x7f117f57785e46227eb0794305d5f213d71c53bd3259cef6aa34733942be1ad),(-0xd8f7c670b2175a539e70fb8631515146d1ef1c61d36c3ba91e742fa1858812f,0x7e6ccd8b2f914cca0a56f6907348b8f63002af5061cfbc44cfdd1bd10b419d),(0x237c8d2ba38171adad5baee5e4b6daafb26be6f74a1fec31fbe479fdb9ef67b1,0x25b8eb989df048e2cd5c8fc864b7582106e5a3ba95ee6b4d52488691874b29af),(0x8ba318b7e04db86ce05317a9ff76f8350eb7e8f06ae652b8d8cfb476b3d4278,-0x141f899fe8fcff3375d4b677bc49e30c354a0f49114ac364f1ffcfbc9ce33959));
(true,(0x27d0f70d864e43d17f59202ec424ec56fa3d4330295797dfcffdd9091138d188,0x135359762ef150886450aac229ca1c438a53637c878185284837a86aabc439a0),(0x503f8cccfbb9f81fd27d9d4cb946da4f2c2f1a6b9e8334248bb422f593e0157,0x2e90dc91a69816d626b8159f9038529d7ca8c254e361bbf91ddca82bb36e572),(0x3afc1302020ac9fdc0d520413c4249bdcf7128ee823d86cccfae10b37a75635,0x20ac704c65e2cd5a28ba0a3f0589a75851a4def68794f8b8af8e12993f113b1f),(0x2fc832fba8ef4dd40a153e5b5e9612520fd9dd7727946970d67f50ca2ce64dc5,-0x9b8eba666be878073d7fba4c20b83d00182631c36da71a562d85f8461e603828),(0x190ae7f8de40ddc024aabda180aaa5e6bdbb8e8998d6d4db7d11c64f3b8b6ec7,0x1fcd406c37bad54763579c08a8509a977e795d5b52cef2debe131a1d659bc894),(0xa1600c48cc4e4918bc1aff0da7b198953857562d1bb0d63fec753ac54869b06,0x2bbda342c215a2974c1081e6948e990106792d2814b4b0ad1fd683ed2e639754));
(false,(0x1057b87aa2b08d4f31677ccba459c2f5a3cfab80ca91117fe365793e05f3d160,0x17931b0af0bc4aa572722262a543ab8602e058e8e7c77cba4b14c67d73e3b75b),(0x114c5018482e13aa5f133ce2e7714ed66948c66f7d5dbd4aa944f541f2de03db,0x154d8b3366092fe27a3b453c8fa1bdeb4a738cb8f723ee2edb53f30451742935),(0x5562b42acc1b3d3ade959bb0dea05689e4cba5018567f5ea49aa1080fbb9b1,0x1f258925309806c32df418172a88af56b44a68ec11bf2983a13732796445cc1d),(-0x49ebacf02fed61b987d81712e9ee990b59ded97a46de457582bb5277b06d4b3,0x10e5f46d74a0aa74b2fb74d15483a023b52e449d17d25f25d73ffd1a88923a3a),(-0x5f72a1c993e8e70607d3e778b0d9a43e0c6dcd5919ca14b070138f44a0975c8,0xfec4b862a430fa1006d33aa607df3e68a9970dc9e3eb7b04b058e0ade6eaff1),(0x4cfe71f7846d80a5b27b9e5bf26570111016e9bb3730e8a628958456810c43d,-0xc31ee4dd1d4009196b831ba67ed01d9787b34fde6d07e92d6544db32b79fd78));
(true,(0xdb09ab65d226cee6b890e3b2e20e4dc05488c2dc35f196d9c5cf7276f40cb8,0x9abc82bad38583b5a398c74212b286799bc881a3590a19770ef759c28c90086),(0x292aae3eb150a9736898eb286dea3a3c2fd8ff44e25b5b4d61ca4cf9a2043fdf,0x114b0da090dd03cedc2685fc3a46772258ded8de609b22d086ed04cac893e5b5),(0xbf95cdef0b87e6bd7df4114775748a7546351d80ffcb774a807bd52cbb043e8,0x2a1b3f3dbb89d1de479af0d4e271a0c02bcaf6cf79d6cc2311ce284d9d8bd70c),(-0x2da91a6acf50df712b86ba49cda0699221e1daf3976c2a5d17849b927779c94,-0x2c746ca584cf1f7b9e51af3b1a28098e672fc77c7d5f456f1a92f2e53a3ab182),(-0x1eae871b4c71b8a13f059ae6be75e4e66aa72651d955fb8ca0cc36cc43a633f,0x578c7457c54347b9ea582790a6b6b7e809bde7fb673a306a4a3c6956f9fff7),(-0x1392e0af62c6408742aa328453341a992a6c73fa2f127681352e1dcc259a73f,-0x4b2ff47dcf54ba4270915fc07a92ce004476ed8cb33d133f0d4992ecc0e6937));
(true,(0xc84fa33f4f2e2b393114b6b45714f41c87717682bead2e5addfad524355b85e,0x26f1125b9651e04411a0561159dfd533fc9c14f9485f0556dd98b256fe0a219c),(0xcff39afa53f962f465a97660635b81ed1744502d87c495d6c09d8779d9e0af2,0x681de58c8b845d36f29c5625f5be3393265213495eb9bcf0192233275f55c23),(0x2dd689532a867e05aedef877cc9d8f9dd5c49ad2169ee30cdd766c533ccbce84,0x3d885bffc2c21ce84b1f0248ea1195d0c50a66d44b07bb229adb347ee3daccf),(-0x9417e7d90f725d2e20a1c1dc6984f2f608970dba1e4a71c85382783d4d468c28,-0x2f35907176955c6351a37012c76d60d28ce32e5792e9311ae32cb7684b95e6fe),(-0x1c191d6638142bf36316aae8cfd85231e05bd87f371801ecd0a0a37ace6054e4,0x142631e00826618ff869f17893f6fe3fb82cc5da826f516827150877487a5665),(-0x1644ba29162ebbe8b64c5846fde19f22d90952bc8a83ab60c28cc06c52bf1b2,0x1975856b76a84716c21a426f2bc69e10525b9abef6b27b525fc2d249d2a05beb));
(true,(0x5a3827a58ab1fe5b677c82a10d26741b12f9d25f1a92085e6c498a300d54206,0xfaa2bfc8104703c71af65aa8a8eeee38d26f41b3bc6c561e37a4ff90dae679e),(0x2eb5e6f40b3247e813fa433b781144ef64bce7dbd502457de53cbed205506a8f,0xa908ca7e212010beb624b5c2acaa0bcca7974f7e9fadbaca40497f42cd64549),(0x1297df3be80d2203620bd1157c92bddd6960509a14bfff8b74f4104d78acd887,0x1a54a5bd221ddbb806ed993d6be26275149970705910b17c3abc4b8cde9a0b31),(0x587221ee7e5265c8023c2a4f5641ef52497bb08386669237d37f49613f6eed,0x14160766dd12759ba278e9b28a6d3da5381b7aee07867fa0a1b97e46bdadf0e0),(-0x469eabf6f8bbdc21994baf115e461308b70e91ed0edfbbd36bb8362834d2115,0x3a68bce53eed7a18007b2d729189f967b51d83cc59f6f97a4ea2a02859c23df),(-0x29d6f951474adcf180944915bcfaf1b8f6e0c9e03c6edece48d97e0c2250513,-0xb62d5379212934d4ef5562d008b16947962e784c352ff34f5fbdeaf3a6c0de6));
(true,(0x11870d7148c8d18b6c46005a77158d78df03daca064ddf1f19510e4b6ab763b3,0x1adf4446ad6964a95991d94d6369e553664d4ef9b65ccfa6aed2d57041f2dab9),(0x2d8f5d93002acdac838a2c470aa563fd5d0dda12f2caac49071d866d2a9ffec7,0x10ce8ad5354607caad3e38befd9ef5f6fdfddd6da64fdad06249401c2543ff21),(0xad2829aacdee06e7ad7e4a158b79e07d08408bc662fa57dbce6b981c7499fb6,0x18b58affaad71a77a3641ec81ea5e00b6448024028cebcafa0d6c58246dc9794),(-0x901e2cb223b7efd35fe8035421a8fbdf744dae83b7a63d3cffb0e34b5722e108,-0x15763ca0b4cae5620d4d898afa50d2639b66b9f9d5cd1b0edf15551fa176cbca),(-0x892dda533c55f1386e3e55a9591dba2a5f5f9e5755e7a3afeace359f47430ab,0x1377597ee97910d9c948c7538476a6209cbcd23273e01147130a28487ecc9265),(0x3e20d4ea54d51a4200f3dbc276138b53ae104cc1e1050dd9d9f3275d1f4a635,-0x19f3ca5093975ed8007388aa4bb9393658101027e218a27827d130057987b13));
(false,(0x164ad6eba4035be1c76b794419c7b5242d6a855a6491ec30d719b25b697edd6,0x298f6a5e7323b40721e4100347be625a0d7137a6b21ad80e7f40adc513676e29),(0x1d7b8473e29f5c6d976f7ba2f9c8aa8876563c8903955107191d123c95161be,0x15a832a13776acb37bab5b375289447592ac8c0c2382a30879429334d889b140),(0x2da46d7ddd681e971cbf32ba4329dbbb6e8fe5fc0709de42c307f6ea35bdb531,0x1d8e2ca93d254c7878726aef850fa36147552b625409e5a523e585fbb9a9f767),(-0x822b01f11b2ec7eab24f734539fa93f9d1875d384de9b5ea9695fc408550dbf,-0x1242f09e239d39097a1fa5ae26e262fac708de060cd52e118fecddae6397488d),(-0x23a726a78b4b0f756ea3d615385fb808ef58b30611a77770655768942e466f69,0x264a6101748ec86a141d783456579c90cdb6efec92b57591f55dbfdd492c1cf),(0x56c976829213ef995f40d0119ae19d6b8d3c45b4d6ce5c934218b01e2ab9fba,0x2567f1080021f0e14a104ae5de762e1a33a3a10259e766bb5bce0015c491d514));
(true,(0x2b68235b03cbc6c99f224ab6265591f276f6db4f7e90ca194b2854f8d6b2ae7e,0x272364d115e24efee2ca3efc34a4a04526db7f4155ee703864d9f2cabad75f07),(0x303707823d83a46b1940a4b8406d8bf677f8084aafb39654dfe6ec2dbdd001c4,0x26f6cec4de912a1191b25b3ff37eb1daaab3b7148bd2bc71ec237ed3a29faa90),(0x1b903e8172b3e3afe14960f2688abf5f6a713901237960297d763a47568bce96,0x1ce4deba18f58d339ea8dff6c74d8dc74e1614c0c7137c6be0de47e77d501602),(0x3ef09955cf05d6ad850e54985ecb2c5a282c0eefa162d14552fc29d20c009f02,0x79e7104d06bb57476479177ffc6ff2c9b17ed84bd11c196a1ab65cc88367655e),(0x747f6dc1a3e615c1fe64adf66fac9daa123d6589c66064e90e278579392da55,0x463683569bed3eccdc20ed3e59443bf85a145ed85b4a50f03f4ffd37055a098c),(-0x1b99048bc9f8f4f42e13bc98cea07eda74c13cee0809e73920136e536603d39d,-0x3507740493aa6d4f787db93e39dbaec0e9238296bcd8d56d22e64645f50de8f5));
(false,(0x169763b05dfb77220bda62891e8dab5f0ee4579bf4ad459527e1f7e19d087fc3,0x1654238830fb6969bc6c5d86e28cb9ce0a7a8bca5f5932466ef6b120a2a9e20c),(0x2946f686a85286debc68f379820a9785b0eceda2cf3595ac85c9840f102bf6b8,0x108101811176f044d5e81c79c83e1666debe69c1595408d8182d6ec2eaff1802),(0x1f800f8b84c9b0427218bbb7b9f445e0b53662a0fe200c09e592d360f25ff10,0x2b8e05a3c35bdeef94f7f432e886a4a3040b6889647a31edae859e0953268c43),(-0x51de28180d6afad277877d452dab0ec61134ad305576a295ca9b2ca5f3c52c7,-0x116e3ab339817783610d535a78275e2ee9291b715c165283a59ddfab1f96df71),(0x3e6d033efae9a2d9124374f03b198ba54cfcb410b44cb1e250696a665ca4f0,0x14d9130be65c137e5e7daf5c0c90a7c03055cd09719627dfe0c0dccab2f9316c),(-0x71fe55d2909c52a29a449db1f0733339cb8700a410c43444159630f3f12b186,0xdafc127f5737c8aea8adb424ca17daac98c19539ec11ceb19baff2bfb348463));
(true,(0x1ae0758fbe7de760c7bb2ae5aa60efd3ff5617d9bf899e6ea72580d1c760d63,0x1916dceb42856a2145b05101eced0027757d509cb19b745091124b28cebedd91),(0x7d5648381fa6d2607418163e621d575a50edc35848e62f9e862a62c903cf3c,0x2a61836c7168af6177913c8af98320a29810823f2969b273e2839865c6af8bcb),(0x101d73adc42a28e818a8cc599973f39f2aa648b8fabfc92051d8313fc1b74295,0x3bafe3cad3fad3a598b15b8c2c1cfbda03e423a8048d6a7a70608bbc29a2c4e),(-0x85c420c5674eb8154aed6a130311e987bf2431e0e5229cb1b9167fac4f74baf6,-0x4f6657150401780d5d60d808f5c3b8cbaf0b4f1154c0ae7faf986bddd96a72e2),(-0xcf314d528f5bbd68238cf662fd5ceed7885ef663fc6a5e881235d64d4f8d95c,0x1bde828101756ed6997f3055db83fb00eb202558c7dd0f1d6e72e250180f071),(0xed50221c026b3a0dd894bec7a1f07443bc8ca997a3601fa450d42bfeb8e4198,0x143fa16e936ec954a8cedc47920fc2d758110ffd34285dff9a572b222e775b90));
(true,(0x28c3c8aa175ca0e3c6064fb1ada1527c64a8f0c271d063b4324603dadbc087c0,0x1e1eea4104a852daba7a7be4618d9105a97a3fd018658cec18819f5c4755895c),(0x3c56662613878ce6f6d09c287851186ce3ff1c197aa92511fe7dcf32fe54d00,0x5f92acad0571ad27b6989dfe0e483da7f51667f3a62d9c96e41883a83f80325),(0xf3d9589bed02730998c98cfc770f5fd5e4767b3c817b96e0df5a967d6b4dcb1,0xf51f2d03084f48ea65a60f135d25787ffba68af8c94a8deab55f709355e041f),(0x85d7687b415b0b9f6dcb2fa826c648f45a3159850f636731d2d1af1a712c5ffd,0x17c5fe338ff63e5df7d5e99b1bb9d7207210a3d78f4d65aa9e736e6cf0116060),(0xf977499972c9f7312214a7afd3f85f89819658e6589987a8960232d571af4c8,0x32bf31861f0f163f0b4a6e33cd135b81ff1703c6738bbe19a23984021dc0fd13),(-0x196cf8465aed5c05dae4a05e027449fc3b6aafaeae442f20001086fc213c3fa2,0x1ca07b10097b49a4b0b05fe634ca6132fdf30b8407fd68bb57d43c5bd6c968c5));
(false,(0x103ab0e49963fb9fea6a38f4600ce4612386b3ce21dcf5862e14fbcae2b2a1b1,0x1ea8eaa1045962c2e42e545e1b5a7779db88985f6c148345883c4dcc8eaa5f19),(0x1276df8ed840179ecf7ef0a946150d34fdc01dd5ca393016f31328799397e374,0x2dcaddb61f92ca0814e843d42e411f42b1070b7b7f1fe9db773723ef861cbe7a),(0x2dfecda50437ceefe962b0477c0762e5e41bd8724744762d71e16cb7cf423732,0x262785a328218280811238489454ff3dd54e71ecfa6fa63edb0ead0b497d5c21),(-0x59f51c5ed57d67f411f741a8b4eb9329e6736040f8fcc5b258c39e76e9a3087,0x1362f037fc04cc1f8ed503904b1c76cf86aa196f6722eb59da463e7724fe9eda),(-0xdfb81de53b165a7338c6a5dd72d7a0d08ce25f487c9d27d4b3739d9cfff1d87,0x14909d0f082832e7d2b6db6854096413a712c3e40bccb69821b7f7ecb2a3e4c7),(0x144cf9e0efea440d5299885481a14d5616ea772593d8e8a731f8c7df9f6ff91a,-0x16a9dae936c9ba0b305da84e39d56ddb686cf0e2866ffc76de77eb0436318d5f));
(true,(0x239ed1cf5672185e1b9867348766011850e682ab9467312d1e459b0c0877cf24,0x1bd1f0fc2455827ca21f1d5c36524e9b18fdfd2af25ca640084cb8ddc4952f34),(0x7c6a38a11076d41772dc124460150cc58c026ce74446142bf7691797583c923,0xb833a9d6bbcd983e78a1796fcffc6d31ee1a6d9e0653371bf5e8604cb4a9b01),(0x1681c1ff8726d3c320a84cb8f63f9dcb03054b6f81ac73259825df291d597155,0xd133db187fd65ea544092bd9c7ef98792ebf40b7221b34e03d8f0918498110),(0x84b4ada1ff8a7043015e288fe613ff5d233f2e6d6703f885fbf8ac34d1165f7c,0x43816332cb1511840962e46d4fee15f54325c63815ac5347f9435ec2dc334d8),(0xa39db89b49f6f7739e1d63f3d86bc3683c2bd196f70692d7618ecd8a631a863,0x28f4ad688c43754f495deaf804a51538a547c77ab8c270e4ce5351857e6d0d7d),(-0xbd6f35876dd909abea407cc44e928ce10f2b1d6906169e7d6e3bab1f93b7011,0x1f60a2bd088ea0a28e038da0dfe4a9a070b20ed4df79f40c9d44d2b34a7cc701));
(true,(0x21d4d102072113958dd07de91b9b83f6f538152e8bf3272f2e8f5116b34c7fc5,0x18fdff8f86fa99af24768f018ffdc99948369a8e4072b995c5d73017715e4410),(0x135d9aff21bb1b9dd3a86b90473724f5b02645d6d799766b4eeb6ba9d4fd7d04,0x285755d5ff3924b9cfc9135812b9799b5e09977d37a70407d657e0b19e4fa7b8),(0x2eb377c2f53272cf450f4873fce45583a5a8ed892b0b7c7ebc4e7ce6e675ebbf,0x2a27c4078214965afbb4841d736b3aa235ca9b57cf46da27a7fc5ff51ea24fe9),(0x2318021100f170d5143a62c468cfe78d6ce78abf7b24f97db4a4f8903e102eb6,0xd4a65f652950debadbbf31de8384301553552754993335ce08d7b78364b8322),(0xabe9b53fc044cb6baeb63ed49f7c2ff9744a11e1c3982d6277111191b9663b9,0x22f1d66c262116de5c6ffeae479b518f0b840944745f7712607ab590a665c0ea),(0x6c93f5b9be9f56525e3fc742a78173fa6673486a4b0459df34c5cfa91002691,-0x1a23d381f866bf15076a085a68d4dad3b87abcf2ebf22281b0a85c44d39ef244));
(true,(0x1807e619e89b4b2711226b1eca9a88fd776b687bd384cbe312fcbf62ae54578a,0x17243c8443e34ca216d1250339cd31abbb4868427038ab5a70d93bbb6460000f),(0xfa14191d843ca9df179e8cc29881e49d8b8594815e69b6f8268881a679386c8,0x29ba9517e9a5981c5befa8cbc6b5163797652400e81a58068e38139f167c203b),(0x20e69c81b9108857694de68aaa406cd686c1bf8f48e91f6b7bab6e737216ad40,0x2b7aa84381bc832c8e43b12270ec46d0a6cf6f8c68eb01a8061924babd180155),(0x53b43fe1d93f19b00f501cf93ec794ddff89f301291d485a44f2c9e73de3e262,-0xa546131b439eb9fb5d96ff7c8e69e9fb694a44303b3dd086de61b844be5ac06),(0xddecf479f1cda04f4d9cd54bd7ce0f8250d9709458cbaca43e1dbdab4d3335,0x16fbd2c2db6f2a1eef43ffc3508a53defdfc8f90afd69c64f992274a412b75f7),(0x284cbcf5c0a7373629d75dbedbe9e1ed3a06f5e74f35ea96352dcbf43a0dbca,0x118ed031a8e1957ee053a6b682fe6309935e79672ce6c27fa3fd1f0c3800e18));
(true,(0x74f264232d74475405f920372626006587acc3e4a34a149a8980e31ce5048ce,0x9eade0a4850f64b30982c5738592485e2d59612eff553c9a36c9d456b09a6c4),(0x2ec2c27f0721073cc2799f4d2b981dccf609773403104fd12bbb05412214b34,0x1b8d96236634a95b023a581b7eec8b9d7b31df178c7147510458398f1a08bd08),(0x3040ba867c1c1b6837fc58a8540aef0929b185e121facff78f5af8e551fb6475,0xf877012996554226c0bd2a41d5ae1b405e56c123f6b62bdb2a898c26a0e85dc),(0x54ec2cdaf2f0b5ce1ca94987aef76ee6332e9c8950acf0acba0a290e0baebd85,-0x363f539c46945e1ff4242008d6b8ea1abd24566b9c3914764bfb72d756fb221c),(-0xedb219371bfed6db63fca586b98a582ac172f035306afc75f9bc8378eee670,0x2fef2f820bed2c44b244dfb8e2ef6e94781622ba80b23858c19fe2dd5d19b7e),(-0xfc60b7b07e62ac920904aa57824f6f7ddc086baa559902dccdfb0e46281d8f,0x4bed17d0e3e5d9ece337610c1b41e952986851a94fd7f14af5745f3d4538e0f));
(true,(0x1f322762872648ca6b014ea2ade9e889a3675fecf79f98278fefccd96c9b1524,0x12f736ab9c09790888ec35ef1ad24c1a22fe6238d4ad9f296cb4fab77f7619fd),(0x1b9431401cc1a6a5c6c18f721ed445c7506508e0ba58783a763e2bf2feadb833,0x204e0e5e2035efe712c452991a5c54806395eac4d02ec490b48e962a9cb47b91),(0x2f0374fdb738f43ee48772bb2a898bb76e770753eabc555762d9b09ce4e99b6a,0x1946757cadb60c52831fd4cf8dbd39d3624bafdce9c478489a30884e4c23e25f),(0x60932e5da4d09b9311e95287b8bc2a87e7b1346be8a2582f97c1d6ce4dacc7e0,0x2fdc266f4b91b008158301da934d4ad654590b862d11364aa18e987222da088e),(0xcad71a8dd77dff02a507741596f9120441be30d0c444884dc9dea55fd81f834,0x1873da1ca03992f20621bdba34e72b989293b5bfee9ede9477cf221de5594fc1),(-0xe084d6581f1c457995588c34732de4fe313f2d04998ca62d2980ceb3af87ffa,-0xcba00545bb65f290c486c2da591090e02f5c8260e8068ad2754b405d4e86d6e));
(true,(0x1c17d995e07137dc25523da3a4a27cfb3267a069f04ab8af2ee83965072d740b,0x47e100855919cfc2f1d044d7e87b69ae4b3536e717821511a06f42b8435809c),(0x25b4f252e3c1edda73a374539c7d4c73b5becb8d112c2896e5bd7bcb58cbe9a8,0x83310812123140dc571a2f9710e03272b50ea68ee7d0915988b18b67d1c8ba7),(0x1d7858872dde76addc41b2a9a4e40cffe8439e1d560033fd8e1608f198bed9ef,0x2154fad4e24cdb1b881718e6020c983f95306e3c6294132cf22a8953b23c914b),(0x437030875ac3c4661872108ff5dff472471d9a21fc11a69ed79ab2fd70a332e4,-0x4863be817f34d6ef920f3fca4ec23a60b79a4b4753674e85b6c945fc79ab9e48),(0xfe45b90707bb2f89d27eb357a38a48347bb2b5ad084675b4ff1fc1f53bfe74d,0x5374dd5c86a232fa6fcb6f7103f80899a8fa7a453c65444f7247bde2854f3e9),(-0x81e110d58c16dd6b7651d15d17df59a4b33d36b82adeba4c6ae7003db1ef048,0xd0dc82039781c195cf34ab02fd5a39ffbdf66b27c14378e5e97130988376b28));
(true,(0x1d9242a6ed2d359a7552a2669aa7ae36bc78ba1aa467119506a5f1644b37ff80,0x1538577c2a0adaa73a1b8130a15acb401c1f25401524927e8d862d709fc6692a),(0x24e642ef0522e961db42590914e680924ef10b34977e76e533bc2e6d60d1ad9f,0x370b723bb712000d798880bdc9382f4959cd3f05c35299b8fb3ca0c715fccf),(0x284689f2ff836eb1e00805cee557d0227e4f6fccdd1c905cf391f92509dd7057,0x12c6201207b64a69c02eff4e87e1975dd083d157bedb1650576eb772999b2bfd),(-0x4d30ca2b43078882c8db9d62b186a73ebf37907d9eaf67d88e970a01edb57caf,0x1c3fa33f893d9d97c41acd3211796081db85882a74eff056547b8c7b88dd4544),(0x8c3ee578dd1dedaf5cceb2952a1caa73fd88bfa4a87d9120b73e2cdcead1ceb,0x19ef33feff44b2451b64d564d0b9c0caf665b8788f9e02eb0fbbb8e6576c7485),(-0x302034272ccd82aa54d0b1c2b6d3ccee783a126ad07efc66687b7918cdafb1a,0x53bb1ca70b0cd5b62d6e95438d050d54303b1af11daae3d17441f97b625a63e));
(true,(0x228cd5af7b3f78433b62bf0e1737c9c9af6a3d7f83dc1df81bb6dba31830c2c9,0x57c5ac0e4afb0809219c813d8a49ef21246865a737603852698400b19b324ff),(0xce5a09fbcb956535f772d95cb35fd868ee18e25cd7ccee36ed0f80382dc0f84,0x74ec0ebeff12aa0f11322503788dce1dca97d5c4338fe0ff141081d003b0902),(0x1396702a2aaf83307cd38d7c0d740ae4961b037ab8bfc8f03adfbb32fda2783b,0x9ff95b3d60017a3f8bb8bc58a3d6aa60d41cf7ead1b9dedfc7ab1e439353f6c),(-0x1f26e579a53238eb56dae855db94261125cc0100b85cff2dec6fbd71b7e84638,0x22f49f34a6963f7cb5b107cefe7cd5fe4692f8481961568ccb306195396a2a1a),(0x180bb7283b97ef12af0d59c714c5ed7d6f6e104782364ba4ae838c99bf16e582,0x7d552eaf09daea1c5a75679a9e69db872d0e1c15da9c7a43a5c32aab9884ec2),(0x11f0e4b7af7d87c637ba87735afcbffce6d10ce4fae55c098e7c7f52da0da022,-0x257ca9db9a83bcd8b32283be8ca392ab3f76044a1c9b2a5bc6c9cfe21b92a79));
(false,(0x6124d94de33ae0a9eeaf4b38810e4b21a5e2311f0187fe258d37896e02bb44,0x1d71e8218805cdd086463297804314e59219922bc6b199aadad17e31d97bab52),(0x23615c66c22f22b612e2d15caa475f4661287963521bfa367b5e560a85f4cc56,0x4ac5554129cf64a281b0341236475f382c1a9cbdcd5c0c5bd313b6d26aad3d5),(0x4dcbbcaf5d7a753082beebcf5e449df4802e22cbc238ecbd7d6119edfe8ae96,0x29136f9b4476203f82eca68d4f3cd1a47913758e7692a0a523baaf41e2b97318),(-0xb045dc2542a554270fc0f7fcf95bdb1c8b288ae50d6f4b5049209d89ba7af1d,0x6e6a95224cfc694a91ebe091296b4b564e4545f454202e8717080db0c4e1e35),(-0x11e9d31e2508f776e6097b30a3bee6c3143b6de5b9b7a2a53f83a77ce1b0eaad,0x7637df621329bd813e2edd5feb2bd2dcb3e1eac4f9910b36ac3759aa5e9fd1),(-0x1c77f8d2081922af3cca57425382a85e5e566bd2b34e3b757ec40c1fb80a965,-0xda8e65b274634fddc37e336da9229646671c8f76c4645f6159f71ee63b27e8c));
(true,(0x302bc6257843535367aef609431a26a1177c688582c72cae91c6f4f76aeb3de4,0xacd1a079ac741ba73c4783905e8f21f2bc25c052081c71403d169c571159b9d),(0x28de3b4ec39fc638f0da42d85d4f8fe1569996536c888a052fb833079ce1cd52,0x961633d8b8796bfd7be704ebb5919d98e1f5c7f8a80633373f08eb8982a14bd),(0x12df52ae91773834060f7a6d4cb379e78e91e12c423084f742ed28df9bf25a3f,0xfd87b74f87150a95f1f4027da21b84589fc3e6fee29729704ddfa6d49d3de64),(-0x54e78d3a52e6bba45f4db598946bcf8deff2be7737ad75b7510e69a345477537,0x3f7290401db7105abe38edd311f9471a23ceb714f25753476ee1efdd9e3c6f58),(0x2d8a5260dd8d46bb74ba683635db328e93b635232df09b4c568a00702e14db6f,0x1580f78cb3023bd473b881d094854ccacd689b8c5a30c4c20a80930f7c88cd37),(-0x4697d12faa74fe931db3f4bdd59368e7b4ac1a9b0315ef64d0ed2feb968839b,-0x5e9203fcd387b9d9b17bae0212775b569ddf52dc876cd995f1f7a40210c6818));
(true,(0xe012cf3376a21e53e6aeb944130a6c47c2ab30a79e00a890b8435b2babd7f2c,0x2fed80a698d1b965061012c8b213d6cc6077f08145507ade37758df7229d5ea3),(0x2440a7cb99308b61301d163e7f3d9c94275532a2b9eea0dc9a6142126062476,0x1f9de7b8a1b288860763a2cdfdbfafcef928aeef49bf696e252f05876f6a6627),(0x264d7f854fb16eaab8a2760243884176031cc10e7c7662fcef017dc372658b07,0x25f228e845c50b372cfe00b94bc374482877fc4b3d6c2cf3f2ef931b7bb7a3d2),(-0x768d27e57479a21351c1d3a9beef11b1970fd72af95b6961019dc89110d88197,-0xfa50b7b98630107ac5c442ce17ea66a0d5b44ead156814bf1aa1bb5cec3d4e),(-0x2b6a49ca6c441f4f106463f6936c54b3ad7e6e637d91984c05aec4b8702eb795,0x1bbd966533acf0f70c83b298b5b05beea55472aa2930743adc3cbb4d64e3b1e1),(0x2131d4fd9a294e06e4f114a654a1e3ad2409a1d96130942ba1ac5414e97724b8,0x1fcc018b9118650bc196ecf9f0487855a44cede9a5f55a14340f410f8666182a));
(false,(0x2b19924b7c42b921eff8b47a8b29a7b955503859b724b74ed76b1ad713001f97,0x200f8caa7f1646c2b4a21f3d60267b858fb53bb3b9f13cf127760752b3e84fa5),(0x9fd5657bdedad7a1764e67d627447c9447e080b7f4618a5a70d7b3769cb414e,0x2a830b3f2c12dd4b9445e0a49cc46cd0f656c9e79ef8e6339f481acee837ff4a),(0x2e4050579e791134a0aae484049e23d137dcc4c228f818a3137f77617bcac417,0x1284bc63aa533ab9da945159b311d8a15d1062ef66107b4e287b3664e16db11c),(0x176013341f301f402a7eff2feba10379b5e5e43662b21b5c3fdc7ff1f35ae4a1,0x90126baa1c3f6bec302a17745db447af747dac5858b22e72d0b851889d34a31),(0x1125497090109d090defd0886af2eceed3fd8b2ac289075c76f5e6f753058941,0x391c02a1169bbecf0dddcbe171eae09b78372b9a4410d1406fda2e866b7c4775),(0x56cdd1b101d84d81e49a785a1d7b135b7e162c1e1c308a1dee27bc7c8e4a2f,-0xed222cfec9b75a97d2553faf5b9ab2a0ad91585052412d4d89005aa7787ce5d));
(true,(0x2c95f24e9c07e3cc9656fcf704dd44e48e8b84e8e4447db29698a8804556fab8,0x42c47c7841cfa92cb431764e558f39719cf70cdcf10c6158b603f48c169bb61),(0x21da7752183303dd06c3cf7e8dd939a46a6fdbe0a1af29835687ae34141fde1b,0x71fed9480a6b2307ab3e0792c7080785874ce4cd9a77bbbba529e619f56dc8c),(0x24502cc22bddc10d8395771158bf5f6c76d9039cbac8b91398792f1aa1c12597,0x214e1ffcc7d79f7d72f3f008072dfdc2c5a6ba8d681598113ae758c4b1fd84d),(0xbbe2ca78d71dc0e687dc28bf32f5179fc791b1028b9b7565e242b1ed8e43af88,-0xa8dd4f79cbb2c5dd415a380bf9c4e714193d043566dc9ee4c79fcc79aa21496),(0x28b819bdb4cf4b99d47642986e68827627f3a98053d9d08e28f3d3ac7d1454f8,0x7b08452a7d35632008da42900a3e8b50b1c9fd3b85c168cbce9a9140c6f5130),(-0x1909d4a0b4d824ecb243675bd63834b4a122f6ebba6722d5cbeed1dc1ee616dc,0x1e8bcb35354d7da38111b879eb02204623c6b9b80943b6342a3c152d45482eb6));
(true,(0xc976fc20ada37d3f717b25f0ffb3049d547d773c5756c2fe9bbeee19a8e981c,0x773ac353505f75856f86719ae255a9f3aeb6eea38fd1b10386ad56507d3c56d),(0xa1e6cd81407f56bca0a3fcc3d5368ee789cff4da1691c2eef9f71869cbc57d3,0xceb1e0ad795e1f62aac8e6b91a7ed77bbcda66aafe9502d1d61c1859cc31433),(0x21efd4576a4508415b497ccb45c2b79a7c62d8be8a4d6de86a840f8b69bfacb,0xae536b6858e2894cd981a0054b35417c6ef74e1eada7f85c7c3390dec73858f),(-0x31a52213cf27dbb43f4c0a650b70847fc935d825178fe569ef03cd6c24e509f3,-0x11a36dd202c5b64af49e498494e93b8703dd4e02757c07cc1701225ab9d19c86),(0x220f9d2f083eaa67f62422165c112964e2728617f0115178df811e52b3d6372,0x3e0c0ac133a7d038b8534eb334ef3c4f62fe1860d76052f8752f0d5f79dcb8b),(0x71161a830e409f9740946a1d14c1af713c3dd6a31cb5aa5940eccee98bfdf1f,0x225b8f53f3a41c88e6bdf6c1947b5275b3bc82a80feb25a971adcf95f886738));
(true,(0x22cbf96a9316bee475b2dcbddf18da442daa89ef57d4f3549e84f38dbd16f392,0x252a0f3235c39697dfb669b0956a4f36a63b8b8b9eb79e0be64f2b5b21f5900e),(0x1ff7f7e298d73ec7c2898ff55e4058392fd5ccc54991a349ecd2de705268af2c,0xf874b60e817d6eac4d25b51d19926f8c80c25a90a8835e9262830ce357554a8),(0x1af04a4df19e94c87da6637c7f6044a03f2b92dc2f26d400a70b4005908c31f5,0x6878cdd8a24fadf821d7bfcfe6593b452afbd7742f369620a5b48db14a74fb0),(-0x9afb6adceb5be1357afb67f17cc7472a7de84f2f2429ef4bc19d5209ae1a5e8,0x2b819e123e72775dd959c0f7a3a3e330a5209e0c79c3350a6ceecdf1630bf16),(-0x38547688ed023dab7d619135486ceb618c440750c6d9e2c29a789ddb7a87e1e,0x35726b1d64ecb3a243589fad2627f98f783db47aba94bab4df78135f32096ec6),(-0xdb4f58dd96dc9611cfae068ee169dab4160c6e240ba06a740e21b9bb155eb04,-0x12a83afb07f38cddbbe4f816a68ecc0db201c24a8da658ecd7ef985d05ec82f1));
(false,(0x1affe293492f67d809aea2dd39d0a8a685cd202cb8be205860eec3d43eeb2591,0x2a0aa8a7441f5e5e8d9805118227607d9a56156c93c004688a19e33ec2c228ba),(0x289d3a6c047aa7e70e5e519137165192b8336c6b7056e94b99946704c94f882c,0x12865484779ad2fa93f77edc916e2bbd301b953a20cbfcd416e341f5bc72f8cd),(0xe40311ee51ed26d7713820fb6802c89f40e5bf8236236195a4d8a9395ce36d4,0xfcca5c2ecc555b0f5797cf41beed95a2080ddea322a8b4972917a0281e9579),(-0xd28141458aab7581f81561c3031ae9f241d8336b49982b3f6d56b5031a30878,-0x1532376acffde7bdd3ed7b5e0d4a54b7ab4cbb9ba8d9ac6e803727bd02edb11),(-0x1575f1d20dbf6878548e86f6a42518acbe202b18d759428353e550918f232078,0x2ee9c1323c1cbcfd215c8ed887fc30f1bf9581165cf96404ea2f5b59ff2fb01b),(-0x23879d98358cb198b70facabfc1dae1fa103a1f8e98199587ddadb6e78db961,-0x92ec88604501cbc8ca65f5c856af97854203ebe40a8ae968e3cd520fa7becf2));
(true,(0x704d735dce1c270433960642a5d843cc03eab443d96f4caa4ad5dfc89ae18de,0x1c5cac8ac26d88c45b5c2294194cdf699f930a38f1fef579c8fb743786b94fa5),(0x2232d13c1672f4b074c17b7d79b268a522ca8e51b8319c51b0f815f69efe606b,0x117747ce52de418b35d28fcd24ddfa156759df41cef6aac65409350223ec7288),(0x193fb7c9f2ec0f4485165688783c143e10ca614e59ce96e08e390a0257997510,0xea4aab36c2ed7884436b6905eee870f3cf69e0669e756e1ab7492ab38ae3d2e),(-0x4e0250f3f0c2cd7efd72aa423d9425a13eb847cd0705e984f42f7f94a1c15109,-0x4c4b1d159396affdf1f8a5ca312e86d4265464fcc8dbcf0eaa3a8ac16a407f9c),(-0xf9acba3e61b3fda8a5a5d49d1226628723d68cb9fffe409d539be410b0e16a8,0x83a39594dc001b8b089a84a1e199f139b074695373428c3287ace8d31dafea6),(0x4f5c65c918ae35711d176d580750b75c13408df1ceb7d8427007aa37610c77,0x3e9ea8244243421c65abf502e21bfdd2a33ddc667d0f058ade831ff02bd99cc));
(false,(0xc6fa2a05676abcafa438794bed540a6b35072817383e3df3779ebd65282225e,0x1ef3ccf96f06e66f8d3d75c5bd889097740d7a73f338de932ceb44ecb10a1a9c),(0x53b3218a9184f0e504d3f4fb6920f6d8d6ac435fef87a9b6f7948bfef3bd8ca,0x2656afeaef3e817c26ef51b87cadc00fcd460b7c14389325cb6a82fcd870ffd9),(0x213254a76820b944b1ce2d09d11ff9940b5387cc6b49b09c787e0cef15e071a6,0x2147f676b4d655be608f1db60cfe90144f5d7088f8a4219ec6605c915345993),(-0x7cb904c0dcf95613f42f4905a97fc65f818a1d9c0a51e41a41ab77ec006b91a,-0x471136efcfaca175621f848e94944b7db57473f965fdc52f18e8db10cdebd8f),(-0x109a1025b7386803fa433f793358eb19af6363a7b7a2ff106b720879449d14e2,0xfe8a127fd3f8ff43389067d88aabf78068427d3e0218ebb7582c3503ace01ab),(0x14cb77362635532ce9ce97baade1610a62b0582235d9cfe9a9df8e727daeb41c,0xd29fd0c26a7a052f016e0e857354e6ce24ac2fccc1b23c91033e4516df699fb));
(true,(0x196eb3824c9c15eb6542500fde2041103b8cf559664e3df03cef4a3129827f53,0x26f60e40813b061cfd36423832545790995ec4c80b26f3e9824bdddc7c163f0d),(0x209c5c481a0247b9a51a1594722664a06cdd008205878d12862e01f340ac6de3,0x1d7515df079ec7b0d38f0a2d6d10fafa367158a1c13043010bdf7ba53585172e),(0x16711785c1a6dbc095646bafa33ccbb4140d41aacd37c47ffa3a1b3ae209e62e,0x2fff3b81fbce07610fe33c0de5b94ce42d4ef3aaede87dbb307f313890b34f08),(0x78f80e90f8f82f810d477af7283d429a61253e9147ffac7ada7c570cba6a213b,0x1ec6236d8aa8096aaf6ad249b812a9cdb405b6e63f1e879a944668e704f1539e),(-0x1200959e0f6cc705c78c79d707f2757b508443b5445932801fd1b1194cfc8491,0x28f3c5e375dbcf706ecab93500ca8b50510d18c588cb01196164bf02929b1102),(-0x158a3360ddcffcf43d8cee64760dc5e33c6c584d345f0603a8134a3392653e72,-0x11604ffed55fb9cc19d629f28776eb0bf553931191ef6c1ddf08a93365855299));
(true,(0x25b1255edf6a8e152b9690261e29e3809be6af6567f5e4687d14d597d2c3e67b,0x699b415b299a6f622da732608ec093026286c94ddcd0660042dcbb649b63adc),(0x1ba403b3dc0903575d37e9ce54a8afe88c9cdd1fdafceda337861ed905355ec1,0xc065407bdb8574c1a23b82a8776144465949184be961e5014cb2e04064d2b66),(0x2f4b5d791efc46ed3229541078165edf686741e034f9604cf681904c5b62dc55,0xef83daf53f7e2407843ed786ea78adb2026274d415a1b78722277cb1359500e),(0x9bb7f88bcb24b27ae4af50523ac58502a12b9497871f91b419c1b8b18e631f3,-0x2637250df5df810bf2c42980256fb9ec339482c917403dd7307e5d9e35041024),(0x1c752b8f49846bda20f0b3a85e70817c30054437455523c7f5bf88f14f2fa56e,0xa4830ef6d17621d69de4b34aa2d0c8979a049ad680b5d7181724f3fa0f5482a),(0x17e524f2c1881bba594ac745e78be8162efefb53494d265fd4d0dbde64976f5,0xe418b8ba45130ffc398f51dac257d56c5ca272e9bc87960058e93e4147e6bf6));
(false,(0x3028abe728020b709b87386f1c57cc5f6aa0dfec5f94924d05c6c8eba3d598b1,0x8d3c0921482bffae3f4aacb9e6561a4f2669f225b8f6f4be8163a085bc69f),(0xd1f57637ca473ae9aff13ad5a616648dbe1e302755dc23bc1a869e38df4b2b0,0x1bb4548071dffab3a970a5150dcde1fd59fc1d167014f828b3c2975e929c8ee5),(0x2b8d3eea28d58e4db58d0b79a01b83fafdd196d5bdc59e7e7f94de58f39aaffc,0x1ba4ced78bbd340cfdd9cfe994b9a86ac287e12372eb0db0fb9d6585c01c17b4),(-0x3a121339764e88f57a4964d40cc84370b2118232df9bef6a6507e757bd7250b,0xd76e894cd48921c9883e621d95e515bf354165367cf8d8806a7ab70d276f5c5),(0x2fed513cbb8fb0262eac3af7327b34e7ba1bcb08f4380744dcaf573e7e1e33ae,0x1191bf98d06e0c6c023135df46f3da4cae3241607f93a3097eeebc69c1c327),(0xe75a45249b7fe3200aa2b77dac32bac90cc3c35eb929b3a5ed1a0e1804630a7,-0xf9807eac83e919bc3b6a3293193e9266ab6afd748bd492dc5b29309a174f2ee));
(true,(0x569a5aac0b923c166da666b43ed099c38fc0fb06dfe9cd7e2b85e44ff035d49,0x2398cd3f8fe0e8ce171185679f5144bec6dab4a94f5d0430a169397ff50582f7),(0x2c679305160e655831c6f2ec43f9ebfd7059dc9e69c341d6c4baeb76ba4185d3,0x147dd090763e9cc94ec92de70411c6a6aea43d3dd7cd22c191758601a4a0e0bf),(0x122255cc772dad105753f37ec475bb1a10fdc9b20f51f20845e528abdbeb98ad,0x13db668eae6fcf7ee79a6b36672a4e107ef90fc62eac83bc8f5c324487a9db6e),(0x5fb035b81f882d5edc134c6d2b7483093103a0d54b03b9733c83b2cfeaa223d,0x192e6d1b32b42ff2c6378c87b8bfdb6041a4ed1ac9da080f925340ff8e5b9d30),(-0x19945d23be31af093c0e9a0a98af6ad4bbdd48c241d061b8b9144138efba2135,0x7f68e501ce921c7b2ec8679888ecf2684d44e287849edf2b5f4ab6ef3b78b83),(-0x8ce05992bd20c8e9a9c6a1fd5f852ddf42c920f3b5b2e48faecc053451b6d42,-0x16344c2e69e580d9b9745e70cb6e330c58549a8c270228619cf55aa365ea22e7));
(false,(0x2a20a52039e411e91532ccdff5cf50d0e3092bbbe57c2d764b7ba3e25b930aac,0x265f9319b17fce5f94fad49655808ca31c8ae5b3904a271e6d74b9e238ec105a),(0x27ca1fcd7ff5786c96dd494dff77e58d1b0fbc5fa38e3b7876e2459fca5b5d6c,0x2ae014c79ab5c0a9873ed759225208cfe24c2ae4be2c976cb82088a12b42098),(0xacf0629b363461d374c177d39674b64372f0af7a2dde51deeb4c01e1db48a03,0x24d9a9c5312ef9917494e3dad330c9d99166a52713c9f5b904df54bd487d5c3b),(-0x15c6ebf6e6aa82e2ffe858e1ad266b43e4bb6d55f56797d5e85e08e14e03f055,-0xbc48f0e9c2669e0736975e7303cb19b029abbb965bf24918c1da6248449c793),(0x63ec3003719f902d4293e4aa3b47d48463cf5f12a49b82ad3a83e360741e840,0x42cfd55ce4e43e1b481ce07320351adc5b771ac67626e65063e50e670f501bf1),(-0xa1b499a55afe0296ec526d814ca02294fead97dcb816f47b43ebd8c70e1723e,0x132a667db5dca2fa10074ed7e0faa2b7ffbdd8944fc34c20f71f740030a789b7));
(true,(0x213dc4a06959a72d513582e2f6c1f5b0549277d3ad7ab29d292b7b9ddd426804,0x2c21b30eaf7b6fd245cf4daf6c12ddf34be0140d31b9b9f85d0e9163833712c4),(0x1c9c7221ef6591c596bea92116bd634bcfbaa88eb23bc14849d2ac37c04b72bf,0x2729a82963d51f9ba0f67079533404a0d03281f4bdbc4dfbd15b2daa3bd3cbdf),(0x70d4336d037bb32ebacb9db1e04d010f24bfb1188f8314dcd9850e47ce72799,0xb3529fca6abcb72ee60d01811da206ed6051e4f039dabc371041391521ffee8),(-0x961127a7b0c78cf5eaef6fad8efed57ac5b06bb0b185e44ba9a91be6ae9b6e50,0x391ed6497bfe2dba46b1b6f56b48d84550fd5a99f936023060d1b3edd06348d0),(-0x11699455fddc2939fd066ef3ab2ec126dbabdad7436ed9c3a4f6894606591f31,0x3ca137ca29768f579655b7488e975a27739fc5ff402af20df613d1437549d2e7),(0x28f32d17982bf3e005722b985d1e6b24a72635f9f504d3641c4f77d613ccfcec,-0xeddd68bf784f2f4d1180e264134db0d5d3e4a264016b935874d89116dab415d));
(false,(0x3e5efddb5b1c2680c9854b4c2ecefe31dce6832fbc6f3463899c0523c3daa5d,0x69daa180e875cb8c7a68e036e73c923a7adc8645b29f55d85ce5c9aaf232b4f),(0x5b944265773af634bfa5d013d462109a8aa87b7b2ed89b2352d13123d3483c8,0xec3cfb2ea0b0d304c4396e53b758178ec2ef3e24f93110286a694351e648864),(0x4791d9be67cbb6b6d55348c0ecef38b12df708b043d3b86b983b43c66b8c536,0x1684de7f8655cf1efa9ba766ade0cbfd4e4b656245db4b026b4c6de12db2c78c),(0x17d2b0c1ede5cd478995a400fad036af332f4a750edc4851c303f8f359f65a8,-0x1b9d810c837717814c5060e5a6034ea0f5894e72fe5c107d79d7b4469bab8e6),(-0x97290e092aff3f572fb331b9ce22ceccdfe40d0b7ae478bcfb2d7fb0fa1b94,0x110dd8da6ef23554601df36420d891edb6152ddb9a837dbf300d59ce12d6d17),(-0x17dea1fd4d5232c2a47f2a5c6d6e59d3aaaeb55c6139a94733a4c4c6702d52f,0x5182b3eee83941d97b2f7a6f64eec06029dcd829f3c70c170818ab3eec50fec));
(true,(0x1ece6e9ef9655f05995e3776c547dde7094f68ed8c466481a02e5653acca98d5,0x2f7294aacca5d1bd0e647a70edd9c217ffcc149ece943ab3f5e6c4c58407dc95),(0x12765f1dbea077ae619361d5ee09ee012a711a4936df0f1ac23479023ed13306,0x11b99b4429a1470b7c8d60cbdea9fd2ca5b6e175dfd3ec5f055b8f37c684df15),(0x57a97b61ee1a9e55f7923bf44c6be8bd028836cc51f884ce049417b8d9db0b3,0x67d068904e249b47d6aadf27403e92a78e987945a426b168bde4e49c2d7419c),(-0x1afaef8fcc516af82bc08041ece6815d83f3a45979e9a9c7a1e32201b76873f4,0x1af6fe5634430030881e5530b9755a22b2fb3aa0b06ed2111b4dff57fba8ce4c),(-0x1ae90bc1a462716bfb54209b7d9688bab2577d6732d3d640e110f57088502a3a,0x3c6918fee73ecba3716d911394e229dab5b475e0e7bd80b4c514f5a4270545c3),(-0x535053a4e5af4f67669527a7dfa1fa678e436ab5b349f67cb23820899ea75b6,-0xe5fe35069caaf0a35ecd75a232c02f34d398fcd5e028f1a67170d41d054bfe5));
(true,(0x2556004fdb6d72d24b428e6240267abfa03dd9bbeadcf65cb80f267825dad363,0x166c7ff2cf06d61f0ff44b9a0ee96e9deb9c77e7deec841a499c2971aef8b754),(0x109adc69d904d637946915b0ec490d7af5d783e9a28002d785977efb58f6e93c,0x11e4de66b901ea4286fb9fc19167abbc0a847107a0aebcdc666f7a4b11d20699),(0xd8ea3fd5dfd7c2e11f5104f169fa05936bd4212da3f3d1eb357cb1cd7ba6c2a,0x61f35bd2bd87c7e2e5836823a5607be74e8c3ea20e9850d85fb2a6f0d564043),(0xc97263579a9d55b3a754818b63050deb3ee86fd9455e52da9d646957fa7d27,-0x197c260c265f52aed55235d1ce71e8434a28852046296b1cd8e54b374eec508c),(0x126a49d49de0f50bf82cfef3cfb1ed6c570306863d6cccb4d59c499b65b01387,0x2299fba77191ec3fb15d6bf9d5a4c3f866e2df89115c620d6fc3e54da939f6a3),(0x182eb64b7fbab8dcb25426735af982078088b1c3eef67249887b9b51e11fa67,0xbaf6ca77ceedceea9064ae55fa78db3d073f043a808e377abd466d7036a13b));
(true,(0x71940faf53f7528fca5c067ae261f65bc6de2722fb03edcf3bf2d6f7951f7f8,0x16ccf4edb9ab84126051efc9efeba4161f5d4b02118902be52e3d5f01dc13d2),(0x1d5bd364e83425e5be3f14e9adee22fd7015019c65f2e869b473e4c7146ed5ff,0x1b7d397bbe26733145af7756c8e5d0bf7246443cd1656a227b48876675dabf52),(0x232c9ea031c306c69546289360e3b723ba27d07e7fd4fee3ef464a95587533e4,0x23070352bb0a3a9abb761971dc6560e8fe1e8d55f784e867529df86cbd79fcc9),(0x65fb7c5cf272fbdb43eb255b1c5cb9a420f0f95b2681f5af97ff2699df0c131,-0x223ef087950ed6567daee89761ad55eeeb6cdc32c53e0f1f9d612c339b68a410),(0xffd4fe5e8c91451a4d2b2a9c975522f1b12d811417e0129a5a1e11656ed2d3,0x6b075720162c7c887f9353f7498236cf961cdb1b6559d153e247b3f725b4c4),(-0x1969b49a886c75602077583522b57b677b64bfd1940463047b60a2cc829712c,-0x1c878cad7e0520e675a34c66a2ce7243f76d64935f467824e8c6a71c7c512f6));
(true,(0x270249ed8a936f3b3bb8efaf1c5fbc411f0bfe26ca3a631a003114bfa5704235,0x21da34e6154930c1d9f28434c632a078a0ac7d5aa6a97193209693b2f10ed654),(0x278df27b72d657f60f9d0f5349020ba72ceee2646c77aac29a17f0e758a3dee6,0x89606b6f2758768c165764ee509fe922046bd6226a11bb92f1aa470b199f387),(0xd5e8ab64a51edac242ba552c5978af89d464279486b6dc4b875106df89ceceb,0x21e25c58fd327d3c57f138b60ab0d587216a852e3dc27619788fddc5ef09ec0f),(0x11cf5a6ef39b1dcdb2d2b3c9307f7ff4f151275519b2f6fe1ef81808e1882ef,0x59eae85893ce62e5d50b3ae38146d8e0573a541f339fd478811346a6742440a),(0x7c3960d2bce3ad8903900d7227bc11f8685bd2052277a99faa3f31c366ac1d3,0x3693c361f1b71173d479c210a965b9f8eaf27e7f2ac4ea87749598b1ff5578fb),(-0x1571486d9c6e0a8df26920b9a6d6be42a8a7b9f1c70ff6650c7099376bd995d2,0x81b00ea20e42e542f099f45a2b89358912b0dad5f5b8d36d9b9dfa0eaf82a05));
(true,(0x1796979a4e08033e9134ef8776e8f47a1918c6cfe1aea2e8e686ce5d8b3ab94e,0x1870709382ead407a432b2b429cef210efeab14f5c643272f30c843fc3be969d),(0x1b2fd6ca400eeb02755846a165a7d5b41f24a748fcc5e61e75a3d8b7c2846993,0x1341c41b16cf76814c806906cecb97de0ddb876564e2ed3b8e498e51dd0c57c9),(0x2ed0644405563796a6ac4940b6c7f7b28e5825357c8bd70e5b0002f084715da3,0x71d351706936e438a967eb51e09e2ad9f8e59dd338599bb8653674403cc5f72),(-0x719d40b24937ba3dd41d70dee26f172c818f55c5e340d174f8959f55f322a39d,0x46dbd860abc0d92deb23eb744f863d0757d11c37077f879926b15a47d8c0a2a),(-0xd835135e9ad1657c613c1d9d6f1ad66cdde2892c552a1e8bbf2778c57ab2fc,0x17d350801405ca6676a29065c31aaeee4381504f318463e19c8a4a3e36762d03),(0xb6ae6d4277ed1e537dbd38538e70a97cace85be11a8840b2f74556d9b8da91a,0x10b67d46509880744ad2f0d8a321d30a38246b99894667d5ddedcfc8c19ce66));
(false,(0x1bb9a84b3470fab6345f0e300ab6150dde0938711266ef035c246eabcba8cb4b,0x1dfe7a0d104c506c3ba7498ecd9bde36db81824300c660a1c7ffd049e1a74eb1),(0xac7204f8076c06cd241614411f54d2b8c93565d287992a381492c5727e69f6c,0x2689e73bc23b7ae2cf754549dc9297ae2f4c6fc010f8326f53085a77a9eec076),(0x1ee81e61ce94f7ca22178f5260a069a7e8bbc35e8404de6c2442e6df2172d2fc,0x1b99895183d289a646c5271b6542a07186fe481cc3706ff3dd3d2f51b2879131),(-0x5ba91611e0380893326b28b61935dd4d6b39e0275aca8ac3982f7778696fd9e,0x1a2e666920ea92f0db95b09d54c97a7216b886babfce60de655da6f48ef9e9c),(-0x2b4c57cddc8bc4684b4935fd836adbc8d5ad0ca4f510d173ad0aeade277990c,0x225e7d882b8067226b6bbb918bee679665db4f363bd8b49435332586ba8aca23),(0x155a38dfe78d78d03077edfd2cf473291512d9d425ed84c033f7e7f0f96082bd,-0xe066620465a556034ca79beb148a215465548431ae7b7a048d2c1e7f0ee34d));
(true,(0x286b710345cb5bc8112bb26f69bc9f4a67072a9590c861bdf3837553c1e87cd0,0x141d5ab7292c3c91f16281e95e30769c232f3c79ec1f8cd48aedcedbc7d6fbd6),(0x12e72b5ed71932eab16f1d84bc420b91539c1a9769b536ee3e3b658447c365cd,0x2bec9e7f03b401e0682b054708ae93fdf1ae6ea9eb9b768a895806eae5cf6061),(0xfb258e4436fc4193371395890a993b4473c9e77f030988daba9272a559b5505,0x2a5dd4424f86235399a84be61123d53ed4f455ad60bb2ea33349b73a2e895159),(0x718f4ef399b26e18b2e0f549e7e45e863a92447af11e383dd65fb8e784e7bf70,0x144ca0c5fd2689db59cc91eefb73be28ed33337f6acebec31de5f5d9dc2787c0),(0x196665cad63d5c64aa7d9f3b14e629a2584441eeedccf3e8af128b28e924a651,0x219a162ef7aa824e852c11102c5aee4218677cd5a800f742d972e61d8b6d4f75),(-0x48c4b3822b022624770c58e7a2c504bde95cd2751f8814552d2aa3429ed7d29,-0x7e02e321afc5ba0b34e066671e1ca8c3bc53e248432b5911f15ad3807ac45f0));
(true,(0x1e2ac62395fd525e3aeebaa40555fe642595b423bfa4c2675d96f20062a772ba,0x9c631e15e4006994ddcdfb3ce6f0ceb23eee9bd73a70cf2a861ae8b24be8c45),(0x6b2ebe58d791a82e306c63f548437b1246b5e762d38d02e43e6b4a656a58649,0x2223550fa4024e54682234de0bbaf50e82f4e529c7f865e19a88bb13037973c2),(0x262ae20f4a146585eae16210922d81d5ea52662f6d205b66e64da0d49da57ce1,0x2751f6254d52619e28a17e435174e6a4c9a44c7da427afa2c16987b778f4be82),(0x63e96338aae27db081cba27a155c00d23027ab864383d78c378d904fe81fef5e,-0x2bc8d731b44bbeddf1ca29594f1491e7299a86540cb65477c5fe2b61ca02a9b8),(0x10d4ec4ba05562f25420eacf96d50f7ac85560472499a8a27cdeb3fbc73acc18,0xc2fb2992e09723775106f5e1e6d683dd66a29fa6c42f950f49515173e9b2e40),(0x5a19cf4439d2d42db37d0bdc6398fb1f368b806da068e2f48332ec46937ad21,0x890d02a77ca9933a7264ed32880fc26ed37e08713141271bae67a9bc087a949));
(false,(0x3037e763d084a854904aed13d269c367ae6ba94cac6c50982061f62034954bc3,0x22a9bf7f1c1b215a1c928009c8ecb949f9a6a52769ab88a7caf66f1a448cb77a),(0x2176a0c3a6f1b64d65b074aad5bc4f624f13f807f04bb6c1adc2b78d80eb414d,0x1c39f7d70dea3838f1771994c43533d305e1cdf6b46c4107730653845c5d5d5d),(0x2462cf32c207deb7205f7b9cf3e3d06ae088cc0c4e7ac4d0e50039e73a959480,0x17f804a5514435e05d6c5cbcdd10d749c5413fb6582988b45ef0f67251ded0a9),(0x17639bb9ef20c6cd0cf4e1bf859f03ffd39ea99caec92829401005af41dbc245,0x3d84ac678da51cc5cc018add37ed6a5d723e02527de3cbaeb4bca7048fcaab9),(0x1737644ae4387230f08df293ce077717319a17a5fe08d308942ca263ca66a80e,0x4513e28976391c82b17e1665afd7c469ddfe216085c28e870924fef41549f5ad),(-0x1ee72bf0e469f28db9c501a7ce247299731916c2ad1329f5c3d7f31efaa25679,-0xd47f0946d508ce39b88e06b25c2812fe61f43f36f4be1af36716ed4076073bc));
(true,(0x2d4c2bd6bef960182e6999fd25f34a4a69cd8ace918260d1e4c1947024f0cdb9,0x1bfd38d03efdb13a8636e8c34ee4dace39723eee4a03e4704a39c503f0945f81),(0x271cd9c3c0d6a4cee1ec7ab449a2f68be87e0cea619858fc2f5ba2938c9c61c,0x14675a69a55fe8e4c0a656e81418c352b12d658b1e9fec1957a1de546928114b),(0x2e7f12dd16a85cc849bce61859e54908b5ee4534e239389da568b2c039eb8690,0x2a46160c55ab87c2c5aa50412428a42323a1d0a37af8cc53955d2db35da7a6fc),(0x145d36a86a887f55ecef59fbf5812a6716bbaab2df7236a934e4e33b5995da02,-0x1e267f0de7849e658665ea791761ce201abe65467f5a2520a6b00607365110cc),(0x1a366c687d5b549d885593380d8abfe90a1e39cd3ab674169cb6bb18973d8d36,0x34661fca3e9444b5d44d153951a681954ffc3be7323029d9da1c6511569818ab),(0x1882c977296220c339ff3f94ea15888d879c55b6b9f2fe2fb3aad92b76c69801,0x19436cb3adef07c1b25ef83ab508dda3e389e9493bd53329fd45310f6f81f082));
(true,(0x2214eb237a651c6bbe94765f91e9fccdb203cd681442ee35f989ef84050cc2e5,0xf72803bb6c50f11689f11c62487d4c725a90d3dee5eccbba1ecb71f5a0ad6d2),(0x1716fb79dc514547bd20fd682751b5858b6ae58a5265bf75c394f7c87ceb696e,0x2f3b1bc4ff12865094d3f5d670412f5332234c2dc43e2ac70157d5195aa9e8d3),(0xeec561017a5bd1ff16af94cea9d2a24b734a1a7344f34374156b6d1a2467990,0x21ef74dc23930774d09edab08961158cc221ca1bcfe0867061073809b61b9220),(0x3ff17b79b59fdf36d09c5797b3e7925ed9177575128a83601fbe35e1eee3af3d,0x530bc08f0ea4bc2831971628b223f0c4665e24664967abdaf4e9586902fa3320),(0x131284886d568b93176293c85cc83c1c7a05b8a17ae130675ef1409df82dbd19,0x15c234458e3aa932cf45809053ffdf5786413eaf59ba13393c1cf73f5f73c6dd),(-0x5fa0226819b097db9ee82bdc3af68ee1dd670698e60450cb952cfdf6f3356c6,-0x197bf67e35fcb4a43a09ed359d8aac13b39483e182d0375389415b3f5a18f0b8));
(true,(0x24d78215a53caf50bb5d9858bfb2846e94f0c06ea13819cb30399073f815f164,0x40dab8ac37696fe60da4c4f42447d62d9cc416498d6767406a28c19fd03f58b),(0x83c113eec5809fd5881dd68d27baf82b9227a07a7b01cebab41e68652d4ae1c,0x16f6fca491a5d26c4a4220309a8ed045b1d63af31f25abf0a5cbc33aebcc90c),(0x1f6f80def819e9cc32b0efc71c5602285d238b74e036a7f99782d8af2e398b9b,0x2e325bf9553a4e552c23bcdb256926d1a535271915b9bc28c769399b85d9883),(0x7a47a678d4bf3b38c7155e54fea1ac34baeb823d581df7fba8702a4a0dd52c59,-0x510b2209860366374b8e02ba63b012c314a3f6f8e8c62cc38508ea76c2c93284),(0x1bb582c9aa6bcf86c16762041f616e45742b4bbf2560efa0d278df3a1dc8f9e9,0x62c01503a97fe16d0db7ffb9be41f6b7b18527ef2fdafaefde1ce804511abea),(0x7793fd8e9752d29f1cdf7c538d1a2ebfc806199b6665a838a95cb77dc775cb0,0x241c0bd3d3b7c9f9d185d9145542ef95247ba8c123f02d643251776e75c0c0e9));
(true,(0x24a718820a4916831a557fb26c11ca125c28fc98ebc06a13a7be65e6f71094f6,0x4323bb01ba24a15be4dd77d08b34551606f6ddf609142e811e7a66599813454),(0x1a5e1cfa0bc13c8af58386a5e2b484f7c38eea28be57b8c51b326ec940b1e8a7,0x23b1d877f2ba6a4650af911b16a95d0ad5c25bfcf8581e919e64ff8b292095bd),(0x27087c21cd346e8ebe80d1ff304bdbb33c47573ee0d29f2af8b92ab5d7612b90,0x3309b5411a22784a8c4ce0766275e0dcb2a78c7f1e3e6eca8777f20aecacbac),(0x2b0af373451a40a4bac4a88dd3c4ee5ab8c19f263e24c8628a07f2f5897c3a34,0x85c2fb7e5084b307c13b7b7052000f524f3348dd97e7734953563424ad94784),(0x1b65c081049d74d002ec802fdede0af784aab0ba3c7e572241a37d6e824d8ae3,0x65b48214f3a8fd8160ba9d1d29da392041a2d58166fca18821fe141ec6e6b0d),(-0xac371e7ceea2833ca2e59e0d5408204eadffc30e0d83b98e8aaeeb28fec648f,-0x1b855f33b7340adc399d29512905eeb89c50b7cdd4b95249db9bd98c11695197));
(true,(0x124439f75ef489fb538e9cb0d6e0a1a50cf6f8e50ebfb73aca74345fc933fa5e,0x229a4fb67fcb084753ac74da4c5fc38d0616609651266c2c2cc0183ddb939c8b),(0x2dfa2bfd76cb94a20bceda62a35479295d2a108f110b47e4e68b7af7386ba301,0xcf788963b64da34211949212fbd7c91341b9c298c020161750c71a8ef9f5f),(0x84730483538d117ee555a7bafe1ea9bb4c476a736ae49dffeaa476e127722c8,0x2c7a35e5d31d9d5b7feb607192dd3accdd21ca213cc15105949374e86d3fc592),(0x3ccaaf5f84c8a30fbb1eac4c2fd412735d50343a95e9322bab4ced0cd2108740,-0x3a773a06f4ddc2c6e33a3154ca4ca7fb2f814045d368d97483f2b6b5e49a635e),(-0x11d90891ed394f989ad9e16444989c4e9ee669172e5b839c5cef11da8db93a9c,0x1a1f82e61b1bcb220c18998fba66defa22219ace113533fd90fd0a51de89b06d),(-0x20e3b5c0f696925ed5e771aa85e27a7d12d1d74688438e2a2553cc5920142f22,-0x913cbe2bc11de3144a38f7f48ee17765ecc56940dfe36842708fa2fa3d69a8));
(true,(0x2f50f9de871ccae24c82ccad7113a2e06d22504d732bfd4a514e8c80a796352b,0x20dab3e29011c935e2cf088799a8bdb7b3b97850191203f0ef7c06f395b16e81),(0x9c966e8cec73e8c3e32193ed08c3b2fc158bcf1b509a113dd6dda9963b40269,0x79f6be64163c3519b99a5d2ec8880165b3f06587fc8b32c5efb31e8bd7df8b9),(0x172d811a07c6cf61ed7b751db404ec2c6a01892c85a1f0e59e58bc345b97899f,0xe9ce1246a9db267bd1116df49dd61dd367ef77f445761efef06ea30088bdffb),(-0xaf412260bf1344e310d94ed777c3113f43a10141424a28bf915b8d1a6c78902c,0x61edea1f8e7d6128aca9f310ee235c4173636f48db495522e98b562df8451f8e),(0x17f58c3a96b8848fdd170f75b6de0cfd8fb5bfa73ee6a1fc188962ed7cfbe44b,0x403f8c9b012e9c5234b41f1d8cd179152d0b656f4964db270321fc33ba6df2a9),(0x2886ebc436ad0b3298086f36a218397a6c867893f5f6fff33007b3549f277e2d,0x112ab0bbb8cb012dd70c968059fadb3b287c370f5f6099421f0686632a4e582b));
(false,(0x1709d79fd1a6048e88959112c7188560fc088afd256045298bdfdc0029bf0a73,0x2d88f396f217393f3b98cd48259b8ec17873019a9dafcfbb33d45b7af1f2f9e6),(0x258c278862f8d8236f1891238cfd4ced55e806fd0f4fb71c44d5900f31d5c7eb,0x1861e6d02edc1af317523ff51afbeb8a1b2259abddb0c7c063652686ab5c3af8),(0x18500e5ce19043082cd75be1d21e472da77610ed6111e0dc550fef65f2cdb735,0x262c906567de098dd37c27fb2a46607f42aa626babc03bf16f77c0316afd7140),(-0xa1b6db610fd6262d8eb88424b5d668bb1525922e7b6d635cb666da1555ace03,0x15ea5f7ca2ab1fa3d9a5f54fa99b0ad6e3b8b7dc2267829b838a0d6b0844d425),(-0x1fe0eb7760e50a1134cf38e48a85fe53cf6af5dfa7bb1191d0ecbc5459617fe4,0x2b5b50cc44083808cfa3b0b63d2e01228a7c43c1bba7a28be56f9d27c2c70cc7),(0x28dcb8ae7a4893dcf4e215e012fd8b457650a9ca14bb8503b1de37e2a8887a0,-0x2219d10f8b0dac0019c5384b7b1e45aaee3458a25eff8d403f7097b752db790c));
(true,(0x5c798d71caf3ced1a340d2c58e8a15acd5398952dab0248882b63a9b8dce4e5,0x6e475ef405b48ebd5d4aa840f122c7728dda5d8af8abb592657d9df670fbc9a),(0x2b03d8407825ad710a2c8e5aba9af5a78c0b8f6ecd20286e91eaf633b4e787b9,0x36c41b6ce63faba13accce9f6d352554523ef84069e68c32d05c711f3129d5b),(0x56534f1ca13036c171af9a218418faff452c4317f2a21641f798bfb085c3bf5,0xb66c24c9ccafd3ce62e6ed0869afff2c99cdc7e220cc227028286780fc23883),(-0x379c67bef8a7ab0bb587e1bfb095b4a3db46ef931242cba66e4acd45d8cb0b1f,-0x617766ef805b91996d4d6d84950b7383774e3a061db601aab86f3878c9063ef4),(-0x4a987e5cddc5fb8689365fd07895f6cd1fba253ff524439bcc185a3c041ad6,0x1a57a040a3a3a0a679472a5b6650442b4e03a8c77ee40ffbd54939a42d3ee7f),(-0x3a365f4aa12dcf0d19ad70ec3b554cf1a4664e7416e8a755993cce0fd97370e,0x1b97d08cc547b8e37868c7e50c68b9ab9f4812cf6c7b6da0f4dcbbcc4ebad2e));
(true,(0xcd0b210f43826bc1beff8cd4e14ef4de36a82e2c88c4e175265f327e049a097,0x14487d41a56a739d418871ccd2e713e23ce769f942c743d1b166519704d8a371),(0xb674768e7c21df9ae55e83fc5cff1a5ab4821c7c6b1893f84a7d6556b4020b1,0x105e68e925b328a74cccd827530dbb300aeac135daa75e8348b71e960f5d1e31),(0xacff658367e8b96e9f50e52a9c77fe127df5d8a5dd25fb76f39bbced4df8deb,0x1563c4dabda4c3241fcf18404b2cd57f761af14c319280fd04d1a81f0e2769b9),(-0x78ae3d557eeb0e484e954831c21b7ae0a2132a234cdbb5332673f4c02ed4f418,-0x7b19f7e75a2f6e5f5e2381198282a223efb00ac558b5e94bb3b98d6fe47c952),(-0x51b9a42feebd01933e953d6f2ce92bec7083680b93e947ecd13c63595e7e6f5,0xabe2b9cbd37f4ea20bf74510328bcd5bb87cfa6172b263d8e2292092a758de1),(0xdcc32a5b1a69557022a0181fd832e9599634b2a1071cd5da367bdbb0c30b042,0x9d24b0a25253d9221a97cbe338aee6c90d869276c32d651f51c8eaaeb0d3e5e));
(true,(0x1ba58e7623e3858a7ab8658480fe926d72ecd67759e25918f24a35f856c7d66c,0xe834663445aee7273560b56a328a162d9224ab01311ed252b72662cbee773e9),(0x1f3e9269489f708bc729d2d3dc0bc53da6c988536f2f1007a925855bac064d79,0x251bb46699c022b7f524b27ea4d824f4b96303016debbd599d93fc96a6711dae),(0x2ba3e45d4a894da5d16a0d6f704b835ed24a64b9b62b16c36cfb7488ab9edd91,0x5fd69636a4ec35c5ffca1f653ec05ee3898cc6b84fb92de1abf034be33e4c5),(0x812dbd27e68fb4e39be0f1fcf263b28add9dfc159f0254b87053c9673adbc4a,0x7c82e8efe784369ce506898f008d40c7cc9a35032831493a720f6a087b52ea8),(0xb7141e2c8495c9733779c03a7850a58d6150bc796628d72add3a4dc4ed1183c,0x109524b2934792c9e8f4c679e57e57066a9384077bec82a327f791eebb0c3138),(-0x51d94c69db02746353f74b47726f44da1d30e20a6dd05dc678c73e8c2f1beb1,-0x11cc8a0bac66d4dc59d92c33bd5350bae218dcb12e1d33f7992031334c2f2fae));
(true,(0x19ebdbb825610f1993ca6843770af3e0216f2b3f8e46276e3c4d7f19d03de7f0,0xef9e20495515492f5aa3cc746264a2af01095c98643454dd31cd1cce619a41c),(0xef3281c6c424591b55a5dac49a47a1c17c0a539a4736a9e6664d3db28d93db5,0x26c242f49669cbe728e4dd37c89d8c34d638d6850d860b56bf38b2dac7512e3),(0x2dcea7ab3a7f4695529fe33880d5624b7eceb21e11be563b8531964ec73178c8,0xf2d388f0443ca2dacbaefe71e92b96700f01ec500d4c9da3c2d21edd2e2b29d),(0x475e372e52431d12dce510580574f52d770afe26151ad0e2744ac2aa8ac21477,-0x7457a7880841437cda4b294f19f96bf5659db111e87643a3d0f0ab08822102c4),(0x940093f453badf7bf890bb500123a6582a69c51d57571d76bf1edb946e0b0ef,0x100b46edcbde2ad667ff40cfb5bce3cc1bd8d4f9feb01689b84c795bec295c37),(-0x2019265710907790fc88846bd9463cd621308fe2df8d1e06215e71d85a6ff4b,0x179f55ce8acae42db6a35ac2cad3a0475cb7b97dbb272fe9c2a1bd68a2ff0eb2));
(false,(0x727f4ff789d66a55d3040f0f9bb91b66f2ff1156cd9b0748add10b4fc7513e2,0x205bc0db7e8a40588891d3cdb8bba20a8edadce7c1d7b301c1fa5cb72bbcbf1a),(0x1787cabc05825f18c15b89b6b93ab53de98f08623143edbd33f4c629377f2f27,0x284f10c7e456134884c8db55287919673a3a488d700dc61a4501b45a964d3410),(0x29dae82b9b8224492e81eff1d63ced3d207f46494e01ec4e1b9670ab869371cd,0x2372cbcb5b35f87f6fdcc180a309b67e4ca649452fdec6566679cfcda0633159),(-0xe21725f4a7bde2a296056667be5395f1c0c17abd1d4d9f8fc376f1c8434bc28,0x979986b7398c42f74039df6ce861ce9fb51c1f46b08d086630825815cf4eeb0),(-0x14943c063be49356e3477ab2b6c77326b3104bc1f6ddb4dfb1f5d42863239a4f,0x991f7ee0eb9198f8a098aac07e678bcc892bc4591b493aeaaf17c3d60e2dfb5),(0x181098a558d2f632e2ebee07fb3236914a9f23b3c3db7a34f893c23cc8eaab5f,-0xb5717a043095d18e5f80be6a03b65a00f4f3101454a693f68c567f7a31fb79c));
(true,(0x16dcc49fb585ec5828deb2c31f8ad2c016cd98c6e200dc3f4906876a5dd33648,0x12664cc6b48391fc4efb427ed50499ec90b2ab844a4d20bedbf1c85453a73740),(0x2518234c794a16b5abd4ca548096f95b7b16c7169ec3a71e2f87c8c29830d588,0x99a313e2b532f8009ca97cbf864a8d81872610d182fddac741a100ca2d5a44b),(0x16a3858f1ac0ca538b0fe0e798b9b7e3f4ae01568b4c9192823ec2cde97f7581,0xcc3d446513028f689ffd61450e7ac6455afe5061097668db3bd701713fc7f25),(0x4efeafd468152a9a6b534d6c77d917988cca538125861f0a468183ef97bd9a9b,-0x34470aa12d7c4f761460bdccac3c3952454d26f38fdfd4d28950889e85a57b70),(0x3ce2455ac2dacb554b7f1b537cd99476629d67ec3380d7a3625963a94a69946,0x1162b22bf8682a9415ac56373385594a4d8cdd27430cea976d4d2060c7315243),(-0x12155ba73c32bb973db50f75121671821044545ac36fb5bfc681092b25d3ff7a,0x9598dbf76961d9f40fd8ffefba6f485e0e13bb8a2c45a61dfdf06aac1b9a206));
(true,(0x12ba4aa642373e42205d357a25966ab5d4f231f334ea2b8808dfd28cc16b02b3,0x2aac863418f8448823de44ef2088034a737fd9d901f5030c2e8aa1d4570f5084),(0x2f02309bb65408a9fa20a4f42761e2278911611c8a92408b0f95f3b9628bedc6,0x115aa82b6b4806fbd87de7f4706965c65f8a61ca3b31051ac7dd2373ddc66ab9),(0x294af345b35ae3cd05c3514f0c6719f1d1397fb0a21c3895222be107a577fdc1,0x2bfff426637b58d65f8a183bca2c0ed9d179090432b85c74fbe74b10fddd3d91),(-0x5493dc781bcbc2c3d0b9cb2bcfd702139b497a32f11ab7a793b519666b26f431,0x5a4f33f381199a0333cac003137a8f61b041c805ceecbde9d34827a8b00ff9a),(-0x1e624d7f7fc8096746dd19c56c0f058507cc82d51ab07f5a5e366ed26e5e58db,0x21079c9bb36761d12daed2f4c7a837957ffc18308a94e964b75156904d4980ef),(0x2ffc0fb8206b0b8f63c0b99ad25d3d48d71e0f99167a3f6730b241b1faedf04,-0xbbe267feb190ca58af119c5507702dec20cdcd4a6bdd43af26cbe416e2177a8));
(false,(0x215c6ffe64d5a801c1f774c8a1c5cb797a053d18e8735e771ca7df31992217ee,0x2ded7d3a986e2d62f561989c049f3b79d879379407fad81f7420d800a50bf277),(0x192b91feabe731c40198cc77ff442f8f66b9896a126c0e16a68139c19a9286b,0x2aef7572bc88fa60c7931ba55b354232ee6f44fe2c700d7e7f228e0e67665d5f),(0x2425d4efea20961d8a718935db4e835dcb1696b374c636fcbe97f5733852d8c0,0x1ce3072193f96096712763843de4080e159899c18e097f1e3e487c4c656031ec),(-0x17a50ef4189c06c735ae4baafbd7aaaaf32b32138bdcd722131cc006676fe17a,-0x102dc22b5df4932606b12207cb53ea614efa349a62fa10c6ee70e57d9e878bdd),(-0x14970eccbe109e8a48a39e8f78a4568d07a5d31416435fb6f4b8d9f126d930fd,0x3f531c3db584a9224f55f5a89510b758eaf6927d19ebd7db72896ef7a3318d46),(0x379a02a302e735e0126e42c9a9d302269d03c00ade3e489cbaae08fb6b8d2b25,0x197c79ec4f839f10d5854be9f9df54bb8025cd81c7568c575e955f409105dea4));
(true,(0x137775708c28fad61216e20fb8fabf9381d8c1ede20a5eb6439b489bf6ba3dfe,0x13862d364cb11d4d66305528b90ca1d1071ef35286df62d624b8c7e8acf6db0e),(0x2290dd373d8e87e175674f70e527e6c7307bd56a8d9019a871165d114c1eb4cf,0x24f026bd69ee7f38916504734bdf08c8d657829d985554f2db29f13ba98c2a55),(0x2147d3686846ce0cfdeef5e1e7edc876cddb5827329db91424bccb1b34edc2ce,0x155fc9dd95c9fe3fadd74cffd6fdc14b577b7401498e94f62ec35e55b4388884),(0x77e6faaaae18e69a2b1f6b86f7bb08d6f0f34567cf345d9bc1c121ba4ae218f8,0x2c08d1383d654fa4379ea3a4f1a0069e69b8105af42b1a09dba0b3b25afad35e),(-0xbdbcf13d09090e3e1d40e110c02ba125eae6e5f5146d5fd37b57200c538f3,0xfb53eb0c6e5343a663ad067faffc690dd7028c6bf5172e84bd63e86d1ec7a23),(-0xfb112b8de532930696d4139567aa58abd642102e58bfa3b48afa53dbacef31e,-0xae610486d7dfc4cb79c79eed702349c30907e81a159a05cc2a2f1ecdb6d3024));
(false,(0xdc787be4b0e41c1b3aeb0de802cb97168d19d2478f60757a7d8b19f9926febc,0x157b8e1c614b4c3a3e00d34f3e17f7829448a23af08f185c3d1bef564f22e645),(0x300ba76267de272551516ca40de66426d10bc953709f48e082f7f5a3acfb2be7,0x23219014613cecf9c4f7a86c34844e5664ccb3c59afc58e07ddcf5e1829ffc5d),(0x28ca5f6e2e61776b1723d656dd062f691021a2d1a38801aadde78e51c92a7589,0x2bae886cdbd74982c56602a212db8f9fa366f865827cf1f8102069aa1604c8ea),(0x20b7928e6c9957b4ee9f57c5e4d71036cdef4ad951d999c2f71ce9d5fa3775d,-0x7ee0493c459847af82732b0d06fbe774e8749a78148dd4763fcf592a8349e23),(-0x59cf8924fb7f62ceb7e7ea41151353f7f8d0ef401b99ef36a224a7fcf4b3874,0xc3bf60bb9fe73b6ba199d8fe8d974aa14dd0f5718b666614b2b69cfebf7bafc),(-0x4a3f56c0b38decaa2a73497d17aaf4707f546becb55ce725abac1e380f5cb39,-0x57831453209810dd0ce3e537b2c4ac877741b5469c8ec146705c033162e9c0a));
(true,(0x234e9c0162446190ee50397a052229c49215345fd3854e44294f7ee928c0e941,0x2ba3af0aafaa26d5358fcfd5cb5b95d5cd6f4ab7b00a19376d7d00548c02cada),(0x11ff34b5e8e1d98432329050b0153db2dd05dc945f37e44347a90a0a1f962a7c,0x8b98cb3adfd0543bac5d028e2d91bf52247d0691125185c574da5c2a2b4bcdd),(0x2079a10931f426b2776da18059669a62a896eea8e9a5634a678cfb31c8872132,0x28d47a46fad584eb4259b49bd2387e4ec516fae3504351cd8cb15f52c9d335a1),(-0x55daa7e2b910c619415267207f9dbe26f53842a45376148ebcf476c3f331d0a2,-0x47f7c6cc5221bde75de7e9d0cd329577673cb41d6947730823acd58272626cd6),(-0xd97e6347c2af70c6c8c429b210085786586a5a34b7f1cb11321076638db35ab,0x3fade733988b6d289b1a0cfb806443d9a72e6fb235cf5ff2f088bd61ce03107b),(-0x1e3a851f26b6b303be67be02cf665136240f3be7af896d8527ddeda03fcc8f0,0x2e5d275fc842808607426292b6bb96a8ad2bdb9ffb46d6074ae29ebb2bc038d5));
(true,(0x16796b931c9f3aac9ba293b2753aee0f48af232864cad2b2b5e3d8de3d211c38,0x39f41641101cf53872ccba234918a4b63ef74eb7da480a7527d3f19c4f8aefd),(0x1c1387c79de5f6812a24b1f66ea99026c385b57751e1c342735020eb67fbf350,0xe3e805e888f3b26abe369e0b27d2d52d5be9088d93cac42857485d9c81685d1),(0x1c5580c836c91cb3a293bf0cbe6a1310ca0521c9fe3ca95042f38703af9f1654,0xea672fa3109bc34e0228483a39d73b71d86e52a3be82726bd97505327a7c1ee),(0x8b13553f9b22e455a6ceacbb2711ff2533fbbc7175f9e29ac015cd2837a9c27,0x17515a475e8b93f709023f318afb84d856c9091f143c417061b19d605c679124),(0xa2a9e75b33e85325f9c747ab2a7224d1184b95d2718e159586583fb0f738e19,0x35d4742dda0dd8aeea17c35716593469ad62152fd2c934f049b79e72c0dfe33),(-0x4449ad80e7ae4d78767ee8ded434756abffcb6eb1b3a6f4ca473160970f8e2e,-0x35157e4bf66d536f5186d9a9c6fffb599545bc3a6203f46df59de728551ab75));
(false,(0xeaba806f253e1d11ce9029c31b2abc250f618ef85876cf6d5e1a692b35235ee,0x1ff46e4a88a50763804d391765fe62100edcb7d66486e41a85c646f4fff3290d),(0x20e25797f3b341f7c70a0b4889a02b8a774e8a68f114f883a189d5211e13ba8d,0x25efd3e99088491c22530ec1a3edd9a50d0498eb360d303b3da225545e939e35),(0x9d397efa783d7648b293a6ce80ef185292a2a722a9118c85912b958517f7043,0x14cc6f76898f560b0c12abb42186fc5016f4ad03dfc2f6178a8335a2bc0f998b),(-0x8b479363cb69d2342bef763c7a419a78bdb28d557916a55ff1867dd47ced1fb,0xbd7944405332a650a2e081927059cdff53a8ef0bf3529759bdbd57dea7dc96),(-0x10a740f55f326ab890bfa7936e279054a233d339b0a1c0ce483b48ac1c9223d9,0x135ffb54f3a30c9ae80c7ce7f9cafaf7419c0c0840220613a8a7cdfd489a277c),(0xe30030c5592477b5848f36da7d6fdfe70c5512867e1f2d3b579cb31bcbdd281,-0xa5b8551feec8fbc6952a1ccccba97d5ab5c6368219c7f5a9178de86c3374126));
(true,(0x4ee7e4898bd04ff6d3df73796f966216a11605114bf053d075441e8cee4d974,0x21194137b94108a8c08347d1e17ac8860e6960b819c9fee65dab49762565632c),(0x4f441fafbf6829f1a243c45aab46b424fcac5d2ba7c5a0205b9e711625072a3,0x1d44e226b2e80e32c24a06b6aee11fe3148f74fe17f373697f14d82dd7271276),(0x8b291f565097e4b93a853ef673a02f9291b26abe9c65f708e3304441725080a,0x97b7b3e919e1691ce7df25b3e4738724ed5ed9fb7dbea7d04151133efe80c46),(-0x443c9e847cf8896c13e8a5eb8e84f38965d8394dfee35e2cdf2a96fbbf1afe0,-0x88feffa84f59ef80dc6ecddcef037a6ff6e7b9d256f3c8ef13cb332135c03faa),(-0x1622cee7edd6adf37c46292cb8bf60e64a8ea00faaa7ee4d1b8f1ff2e0bf99db,0x6bf052771ba73020e7544896bbd8ea780e7a3d623e5ab8873af7f60cb5b0f00),(-0x31507b857e4812cfac39115b46b23a65fdbc6b6dc3ed16b6220388e95118d9f,0x13fc9721a92ffd239978ae2ad4ecea58ef6f8df9ff1b446f74abb4a25dc42ff5));
(false,(0x12a62544559d9bea3972f3418306adc5266a8d2c6d88ccf7494ef80663d4cd21,0x177cc433c7f2c2bfb8c083a224056d4468d3d8511f31f8ccc75d96c8ecfbe157),(0x2e0e8e6f544e84f1c94ec6abfa01a3c871856135c956b4560ccab39441ec4cf8,0x2f37c8b8c0236d7ace2189daaf20bd03054e36d07010a3a1233a37af36c41237),(0x22bb78d2ee7ee9bf9a8773b80195f05a1b72f8d9ce65bcbc65ed9af34ab313db,0x17341ff8488ab2fe0113e5122367f5c0807728b0c2f0f2da596b40e1e9c9e16c),(0x9249099333bd68897e830aafcd4410280eaf0fbe69380542e96ca43dd73de3a,0x7d0adf97ec9ae35701d291f16b73799680d29b09a70a81b4642d621fe5571bb),(-0x436822e23ca1decbea66818cf9d34f09c0938417e8cde4124182bfe4d348968,0x121a5775743df6e841800e4799debf1e2d078173c40a6ecf46d0b8f8431cf489),(-0x720dc15076937fc3a73ef815571fdfa70954ddfb4ec89c0a859f383ffbdfd25,-0x1addd84297125cac228e610b104a7ed1232308a6374acff650d2ad400fb4f4da));
(true,(0x29056c4073661537a61789be7be917f2867b736314aa33791cafc04113880b90,0x276c8975ea1eb5c1b792e5aab24ebc224259e1ad552dc23ca131a8258858ad20),(0x1fd679fddbedd3931d0ee7d44e6f1c8e39ec2755a9d043d733d75ea11f35f4f6,0x2bac4e43f10fbf6ba63ed0db36d73a27986911ec45ae507248a0908b3507a5fc),(0x2730b801d46cb0b1194509358f6d5790c1b444cd84d352b333787605bb19b7e0,0x17475573f0f6bb013adbebf1dc234ff95b22766e4948d177f73399cf23ce91ee),(0x1bca78f62f574f220b2a10390dc7469d000667604b3c58b4756e061e816220d5,-0xadb5011b0b9972af946949940b55a7196d82495bbf7cd650ec591cf84284eb10),(0x2a7b852facb1933ddbc1d793c56300eb665475d7cdc78d4ad5a821ac2971616,0x42d6a6d559cb901e9e4cb0d7113b0c8aae682174345143d45531226df628acba),(0x92a58b238bfcfc83074e0322b14c7d45a3c935ae6639bcdc57f15b6dfe00153,0xe96c4aff3df81be086029c620f52bdc4190874ffef9e74e9e6e00e80d66193a));
(true,(0x196e1811a38e282a5664b3df7c402fbccc49d55e18697f35aeca8e5f159373f,0x2a71fc9dcc73513df8bb7142e792c4f26a536b38f55fe4c9d898af08240dab6c),(0xd622cdab3744a55c9a82dbdc4aea4412eb4145aa4a285871311b10b130a992f,0x101c9c93354790ee1318807f24e063a979da8524a6b4d9cee586a7136321effb),(0x1e0d37fc4d130365c0e357a536573658408c5b9ed0e79ea3cd51d04b4d2e607d,0x48fc210a4813c6bc715a301a11f4560cb8f4586be4496d51c1a903ffd2f7823),(0x1124419b3202472477e97c9d816090710dab36b3e527cba8420ad195cf232fec,-0x661f180d74bb215fe6b5a9e0510da441a1b8fd978b8c2893b9a122e46017ead4),(-0x252d5f258fca5d14de8d24c3e64dc69f06821bdbc6ae9786bb846a6349769c86,0x2c9c38727d98a791ab631f577f0c7e775a440d06940a96f1ac02d312c1101a3),(-0x17918015aeec45a6dd86a7bbee810aca48b620c44014690bc8fd86d2ca694cb0,0x11177fbfb2e5292b27c64e522ad9a9889b77cdc3e75842e9036d344f564f4bce));
(false,(0x2390f5c54aa041daab54a1caf351e4aa2cd65b35595bebcce07081328924c681,0x148333dbebddd97cb2e90aa3df0d9afa1b92f74fab4bff7434addb4f0a1a1d94),(0x39da7711adc75417cd6e9ac17accea5ddb1ebeabad00c1ced3827eda6e0389e,0x1630515931e41c6ccb3a28d5a42ff6def02bb731641762fa090fb13b1a88b400),(0x2edd39e8113ebb2c6666334df08e52df4b7fe07019947175c17c3dc8b06ce35d,0x1099751687043e0bb6edab659086dc36abfa885120f453e99242df09c502351b),(0x3cd35199c45350cea29ec3a8fc7a75dca3c60bb5bd5b6d8d47c2795e18ff4d3,0xb7187413c0565152bb546f255a0aade191bf2f0aa2171eeb9f8f83cf0fde761),(0x1171eb2d37e3e8b8dab43f6ea101e17fc6e4c3dac6031ed5ba8b30e331958311,0x1e26e3eef79161534987d5706dd632f7ef8f0d36910ffb9e8ace0420757b1dbd),(0x9c13b596f66b788b0eedfafa75521a0aae9650122106a70be2a0bae80a0198d,-0x53752a18889623df1e6a7f76669e6dec16a8a4231067601e756955f7308319));
(true,(0x452a1ffc93b682f5fcf3817ec9d48a147bf244d1aed4fb8fb32d8b9cdc3eb9c,0x2ac12ab5e0f02313af39f75e8e217c6d3c203d729bd1887e90a180d07190c6d),(0x2d3d4c4b7b891ca4b277a8035391bc7e267ec09280a1839ee145147a5d1017e7,0x28dcfe00aabe8142a96620afd2be6b880c2351a90886bc4da5a60dac02b9da9),(0x11b5dc84b4a1eb55f0783d2007f56a059e4d1206fc4f05fd80c3d1386a5536e9,0x2d90bc1a1aabf662e8b08569f299d8831281611deecb801dcad97744496923ac),(0x24404257b76b13f776d2c3614eddfaeab79a8a0ca6ad025682f718170f464ec2,-0x1ce722ae56fa8521f005051a23edff74d6fa0bafeac9bf9efb3604ecd4aabea),(0x3d1488e241f1ab66038c4b622fbf59881f3fdbdfa855fdf15c53bb2a029e5c,0x7a3700d1846151da2d150a18657a3f26e13d551fdd85ccdebe6368da3414d9),(-0x4cd6a7ca895e0d80839ff3a3866c9e5376c9437eb784a37fd89206fec0f674b,-0x8b6280f4de32cf5a99d115f586aaf88e4a7eda1f9c9e25f48568dea149c868));
(false,(0x97abc47b78e73ab1cd43221731f9455a79c4ef6d9543a70435d43174c84612e,0x51be57ad158bb6ab3641c836084b56a3f126c9d0aa36bcea35a69df2c7b052f),(0x623d59afa095229230030a5261672de7b332d4925c14c0b4e66e3bf89d694db,0x7e16a63581e94746717bb5c1296564219e89952ce56e63ac10c812db5972560),(0x1df0bfcb9ddfa778f7ce0228684e38da764c3d42d526167580c6a50bd7341875,0x10034c845fa43a38e62503262fc347f5f02bb2cb811d5c503b431684efec8ebc),(-0x696a4e6dd9ed65f54e07b6595c44338fe010fe3127cad8410a8e3144850559c,0x243981a861e55ada6a93a2558a0088207e4472d9140afcc5efbe129cdddd14f),(0x1514a3e3e243e2bfa17883240ca10d9a58e4581a85cb3af82e53c404d75386c,0x20067d3481d4f8762f447cd77db479a027f5f76a837fb1de42fa04bae2bfa9f),(0x838b559afa0f5d3e99ce43f62a2543f8de56b6ca4dbbde88242b625aeb30c05,0x315a27a3af41462ed371e1f489fa6f089f41d5b99a21d3dff9e611aa55f36c6));
(true,(0x22269749b8cb2f63715c6efa4fcc59fafa49507b5e3efeb8736899bc63c9cc9,0x11af1ed8f495426bf6790577309a278f388d4e72239308559a38a4ee85368293),(0x1f56f7ecd14a15b22e6f4a21ba3433b8fd1833e8b78e1537d10de004460663fa,0x2d5f6d22789e52ee49d8c83b14aa01d0fc956078e117aff3a23c9ca9e955219d),(0xe33afee46463cc2b0cdb733efa21913e0752ebbc8b1e80e0eb6a96b57799376,0x21135a66fc4efdd7bcda32ec2cf666fe911b845e84a1c1d115dbf1b412c05d53),(-0x78c9f3598b15ad5d9b0e06cc65150fcc27f0f5dab3817c6a9e381e495937c7f,0x114bba1cd51cd0eb84184bbff7d196cbb8329c6c91076e1918dbacdd510fc57a),(-0x65e447e3685aa55e469386983f79dc577c3471127c6b7ea894fa463b5efa978,0x18f5b274358580c5b04bff5ecad3c2f8867f958fd68a6b0d1616c871f5efe3f),(0xc96e8801022425838db0af360a79a76f8868736b94427609fd0a18433d23e93,-0xadccf6905733f8f65e28fc5b816793098e7c341a4148859bcfc622de8aba5b7));
(true,(0x2d4939d9ff13962607d5a84d49f2a6a947606dc2d2b3d6d9c9e15334160b3105,0x137f07566b744c5c7662c8e2e96ea965cadb1372bf700e1f81c7808973a23304),(0x2d14b89cf0a1faee13cf0af941d9f1e77be1b8735fc43443dcb67c2d0710daca,0x1223919cd72709e21dcce05848ab112a4f04775901be597184c3099c51002143),(0x24e03d23e3f0d7d65e5d23368a625c3f03c685e16a046fa2d5fcb7b40abfc4a3,0xb7e2f0ade78c89561b6d9253509bc9feab74f5227d036703f3f8e1caad5fd67),(0x42aab0ebb9212838d04e7cb2eb07a021a8e0ddb46b8bd6890a6a96b0c5423975,-0x66f53fc223d8b02d1d5f4cb21d8a90bd8ac16066acd5fcd37156b5d1baaa7c12),(0x2286607d0e74f2b059155aab648d4dc133524d7dc52d9e996bb94cba095e2fdd,0x247d68e4280a8a4f91354e2eb6844525ec18770c03bd460e0acac1bd2203da7d),(-0x17d4d239dddb8b0db68cd56ee598e1ee515d5f686d9df703eba4d40f09716e67,0x13f32a08d393eeaae4ea980fa936394184ae98952d3638dcacdd37bc91277ff8));
(false,(0x4f90733f881816c89ddea05a539f07205461039517e9255bd9a62392bb24750,0x1e96d5e91e991ad90270aecda1e177ea19fcc526896a241df6cc58429a89b3d9),(0x1eb2a54377b6ff692ab5ad0cd6a0fbbfa7865be02a4f8831e5cdab2e86e3f865,0x23fb51815730d31eeeb82083f80c0444346d5ad0d8da48bf1ee9950801d23fab),(0x2fe5b85746e35e01b0e23ecd2508bd12545cbbf2046eedd3d31728fff954e466,0x196ed69534423a2fa9a5ff1883ca9b27c03f7099b54faddfbabc8dd844b206d8),(-0x6dadf1bc027cd5b8bffe98ac89ecfd3458d838e67a4a38955f2ddef40c99652,-0xc8fa7d28436ccf3f2af02ed9e4d2ef47a73e30567adc54b737a44ca663d3d1f),(-0x12d32c2723b1efea0a7576b48d746b664c92f28a3f93624f3d8b2d56271efb0b,0x649668f16c86d9d14e17eed301b9c67ffd00784ae876730544b2bc2dcab5690),(0xcc1b71d6bdcc530101b1261fc2b94f281313c2950423b7aedf7268a08902659,0x7421c8be91258068574f8b341e0e99522903a811b8fe37c79bbf4e201e7be32));
(true,(0x1e761bbb12d10e2078af1e7dc24929a06656b5b9d7ab4309f94e45330a7c8b2d,0x150857d0721110d10ae4cb9e841540b5b602c61c7dda37d33426b3f1186c3874),(0x2f44f2ea635eb9d8a8ea7a5f0ab6ec66d124ccda52a126943c49f8a317e634b1,0x7832aff4c69a96f9f499067cef5bb782e79cb9e42445ac740cba370c9e67cd4),(0x1fd2f0b918aeb3693fb09b9f52f38c5a9b6d00e7706808f3f7d727957caec341,0x421248d73cf4b8279445f1ca9f9f32b5e9ff839696ccd4cb6e43e7c9df779ea),(0x3c08cec2f94ca2c537613b5b5abfaebb6f1a08c5a75deb6231acff6f83aa3ae4,-0x3f4c4d586f2ff3d74920cfbf876d7f4660ba5e292b7723665af8a23c38312746),(0xa087f8e64db0a3311e7999ad1a46cb26d5454eb8decb26bfbf9c67a59480c32,0x1a7a99bac56866f68d14f0d35071dd744454bab7df78b45651dbdea94a031d72),(-0x16ce12ccddd551d2ab3dacf22cc21830d618d4840d88e4ca8b2b3f52bc8a5199,0xab7dbfca4de0f1aab6d5fe39a1249645c7dd0d5ce9394bc8de2169b7568321f));
(true,(0x16fe7ec0e1a9c43ee32fecbb24d2a03ca7416e86a7ddacb826e26b163a63a954,0x1f2787bfb5b7854d64d2df8c0cdb60ea646b91aab309ac0334619979ac273d2),(0xb7b5e08cffc8d653cd84c58cb4b4c93e57e261fd0c9f1e38202056d2b60cbbe,0x236edd453811b489464a98c711fa100194720aa2cac5fbfb9bd80ab29c8c0a7c),(0x1592f14f3d78f339db9f05acde5e7921d94d2d333dd7b81b1c9fac59ebc6df81,0x56f3506f344014c413149b5f74e0220b64461a40d0825f0bec3abd03fcf5f2f),(-0x691be4ac016e4a3a7ad5cdbad86b2dec7ccafc4aedd2cf6ffd6dfcd7741e8c35,-0x258b185243be1dad2aefad6952d93cd0b2293d3dfbc6d36aa4f93e8d2dbf629c),(0xad9008407053ea7d3c0796c4460d325da856bf7ec87af01fac57fce0709be74,0x1d9b648c24b623df69aa6a26f6302db08b255912d540bb97f703d4ede0556f4),(0x1220dec4e1f1c31b5eabe43416ea602d00502471b3ee3a4ae3a9ca94bcd0fae6,-0xbd3b3b7df74fc96fd01352f0d1e3e800e6de33869a2396d533ac4b5261d6a85));
(true,(0x95a515a7a56954fa98fb1f813dc5269a225b3510cad1b6c553ce0e46e31dd27,0xce913716ab31f4e77edd56f5c3539170b528dd35ba079d15061a38f4ccf991d),(0x706bc3c7ca74a41c1b30dc2e3fb845e1bf2506dbcbd8d5139e458f4c0207775,0xb1ef7879f29ed24248191d6b68ca7f1646805f60c60c1067071cf239b73565d),(0x13c3df065264215934262d20e3a26c2fe1030440978b51999c16edfc3b4fbd8e,0x2c460a1165b1b2e2974d4ebab96208d97e2b2bbcc00b704b5dae5ab29c741ba2),(0x4b19a8f65017e31b8541c290b9cef57d6336b1505cecdbe4657ed08f907d51d4,-0x24d4bdd65473fe93ca1285dba858227061ecc8903fa77030b57047a1c929303c),(-0x1a3016cda0569adb7d609a95128278dd1c04a739fbc8c6b54df6f1a06713def,0x4fd8f5974880d2dbaeab1965891b6274e00859e13780ee5c57713ffda54a2f7),(-0x5a0054ee26b459b2012bac268e3beae92dbd3bfbae10477e4d5d272397da275,0x5e337812f8c47e7063d8c1b768c751c50c575954968e6c6dba9a650eaee6aeb));
(true,(0x1af8d205935a1248101b0723db3c8959325b450708566be514c70b29a9e83dbe,0x2498b0986d93d4932bfcf91dd10ef1b59ec691228f1ce53d158411a56fcf64d1),(0x3650bcbe3f6a73c3ed68288832fba9a867df7db675fba5fd33b272207a6f135,0x1b72cb0b7ecb6b13e17610ec412a87a7eb0ca1083945d7f950a67937606d5c76),(0x183aabf363f74637b28f4fa3c3297237896a2ad4f89c9013926ced7434e603c1,0x28614b381be307315130723f0407b820853242aa027aa317c42d691995ee85c5),(-0x28531cbf0edec91cb5ece97f9784049faa408c6d5a34855302792b2e8bf412d4,0x458f48e3f1931e4e769cf48ed5e0ec27c5eb739b0716f5155aa2681994040f42),(-0xca495b57e56d7a7956309f2692e592ac8132396685ac3178d875796bee3e664,0x28cb93e5eaa019cc1269938a45e21f0db7a363dab0982cc56adb15c63867e694),(0xe5f2e8f965aa3742e96e05e29f0a937b684518e38fba5d50757e8fa29e03f96,-0x65a9ce94fa8e73f1600278d2b827a7348baa05bf4a9d313fa20a3673b110e23));
(true,(0x73f91fd42fe30ba1cbeb839780f6c1d6b53bbb77ae6fd980815ecad7295dc17,0x2de8b7db5ba7fc27a4b4c08e85120d4dd1959e54e73722cd1c370e7ad5d7d809),(0xae81242d6965b9fb78b77ed9e2d6fa7f9f17af9349fac3648eb2c6d6661892c,0x2776da3b672ca959fdfc82bed74ce7607d2017fad1a03aa73e51e15a08f19246),(0x890f1f1c5f02ac275541ec048db3ec5932a4397e0c0aeb6eb73a1e2458537e0,0x2c4a92923a644712a4b63dabfd543a89b0c1e8d74e3cb9421bb0416af760b718),(-0x175d992ec41b63cf41c6730d118cef908ebc15c306105e30f0b9178d145dd33d,0x2e84013ae6ca8724bc6ff63bf92c1cf3e8a40c990df0bee5f303756d9ac5387c),(-0x2a77cde9dd3f5606f1e40f51ae497b167e4245bf95ea5c91d1779c591c75b27a,0xdc0bd165a9f5d0f74fb6825ee5bbffe79092b94de0c9c766198dad4ac1f1434),(0xa4633be4d2c59b41b61b35695d34d7df6dce7feb9f99d5a6efd233ea0d85d92,-0x8ed1ba59bb16f547ecbe3589bff1feb5520c5e30ec6bb7803347f36b3cd89e4));
(true,(0xddf8d96c10b0f6143d431c24ea56bc5cd1c5296d1b043dfe391570a1f260921,0x1b8a070d260f13e455c29832d70189fdde2614e57faf3f402938a10404300652),(0x2fe4fdd3eb16eaca0278d3a47c3ff427c4685032590b4ed3ea743c76396509ce,0xcd2e381b07f215914ff9882924d61b8d40654ec266c7bb5651e91714016d4e7),(0xe9bd9602d521709855e2fc124dcb07e03093f3ae22ca281182f3bc0cb6be150,0x180b0177d816e11379ce4d44448104293da1bc49beee14dd9b65219976fcac98),(0x2bad5c4f7635cfd8961a4c297a806a339c57f14ccc783468c2a45e1991548604,-0x1238affb865d8f64c9dcb1da494c9138d9098ae7d8e77c3ff3e59557f2766f80),(-0xbb1e6930378b16354e78e57a508b41d393a0387e9c7393cd0b4059c3e7f970f,0xfca498e1f99c1115f1bf87ea916eacacc02a8acaa7f525ac0025e2e6f41eb47),(-0x19c3c2beff5b97d4566ffbca6582138021b530bdecfd02ea156fbd0f7e25e980,-0xd697450e6a9f71719a51a408a6c48ff9e9a8253e6c3622ed01b5237313db883));
(true,(0x141cc56402fa533c31f06988e415780fb62cd270dc654442c6eac851a0ec64ab,0x21f55c195f13f2c91e88591b830166789d09d94ea57b1bfd376afcbb645aea8d),(0x1680fdc3c7109d3ead9a00d48b16d8ca6318fee92dc4ea89753d3a3824bd4e6e,0x2486171ba3c77b5e58c560233079a7b3b61c9a63bb39a2f2b1757941e3047d10),(0xad1df6caae39e4fc575272a559caea13679d51d302d159ca8f84b6c0bbfc990,0x2a3c1a5845a86298b1fd3d2b057c94feaf460b0d78fe254fb068c381a166ad3d),(-0x999ccec68996f0d08796be912f2287de1ca99129f42cb42fa22358e3adebc1af,-0x23a9dfe577efd68a7c02be1d0adffb6190b29a21a138f49a31fee4a18b413d04),(-0xf788ff8bc7ae91f8083454eec6384978bf1832746f41ed6d727123672565fb6,0x1c3a30456b008bf0df8ea917f0c4e0ef7cd4ac1d449d60affd4bed75c7729a80),(0x1b2f17dc0250b3e4039bd0304a542b41b4f6c3298c5cf10fd9f3093e07e46903,0x7f7aea7fc7a270b4de4fc87fc3543655786ecc53c8fae7292af3e1c53945c18));
(false,(0x13765016ba7ac53914e1aea6e6360f3c7d156081038baf2ef52b4800df051c21,0x2e8708f393383bce2d3cd5cd63054588172d181df4e81e97bc6fe04c383b7a87),(0x66d59f0a19b4b6c076027897158552c9897ce8e4477f4ca3550bd5d716abf44,0x26585bb21766df1722edb99065936eb374449e01775f66b56933892ef593313f),(0x28f7bed00e53f4cef8d356d1d7f5db92bd1ad9b0c54e59ce22381f6372b49f30,0x2648348be6d123932c90cfb1a9fb61b6839aa883ed7a1725d6c1394de1a69f50),(0xb25bd633122eae4dbf3696aecaeca76d2e421888310e523c22b3066576f38e1,-0x2f8083002956f17b0067e6bb298ab8b9df85f27c7c08021e1d13a599626beb5),(-0x24e85eebe786dd231045bde3bbea06eb409538a05fabc0c18371686afe415379,0x256cba96b4f0f781cb6c4088fdfa9ec9f64fade959f642be593d915808d1bedb),(0x83786f4f9bf5e296f33b55783c56f7a539f14f43985e7acc40dfbd87a18cb75,0xeb98ed37dea1e2c8f666ad7bd5e428239ef1f749f5602b0c3b4c3ffd144c026));
(true,(0x256d58c64e0d9babfa9c44fdccfaa6371f3dd5c26e6ca6cfb930d6d1a3a2feae,0x2bffc7f2a1fcc8893b7128348e7d55ad21077ef35b87edf509e4cbbcfb6631c7),(0x2c476d508de6328d01691daca4003eb26f441d359a4fd5e24063b5c22351bc0b,0x25066df608133be1df70c9fc5f471731d0ba9fb02af9f0dc691bf51630e71999),(0x940af96f6a2f5416a89e524040f0f92a223488149497297c70606431b8ba20b,0x7a4925a079487b6c1ced78380e946736c20f407083b42ace002e3fbd3f63bb0),(0x525928510b7b09c2b40e94f080edcf0f2a3eaf755af2f443eafa7653347362b5,0x6728407cacda483f19eb255749e744781055c7f22d7f7152522a060c1ec29948),(-0xb0ef0bf3c4b3de83c2b7627d2838b5201a5b1693805e1144325fb7a3f411300,0x440f3c5e285e9813a7c396a08dbaead1491501a81dad3f56ad0b942b08befcab),(-0x1e79bd1b2889042489d37441c23ae15331e4edeaaa42090d567bfa09d63c88c1,-0x21651de9453cd3c18f99a248b661dfcce5314cd0c6ac8a55ac70e40a1e0aa1bb));
(false,(0x1d23f2fd76ae4fd1377069018617fde449b6dfb150c10eea2227c4e4560d9ab1,0x9671c5dfcb5abc458f37103d74ed277f1d89ba51ba4132e77f8a4cde78283d5),(0x1344c97ef443889654559cdcb10c666195408413e1688c91a0fc2bcb21bc4010,0x1940c20f323490cc56ed18bfa412574169619f8b0648edc2e21a053a0a63cde7),(0x2001c5ab45607ce9e0536af4db7688f68ccd8f8957f382f7e51fd433fee7fe34,0x5fbd778a0ebfc94b60b4034eb770d2d43ad004741a5d40470bfd9282681be14),(-0x9fb2e42f39f623d7b43e492a9d1e85195e210052946fa6a96250b850032bdb6,-0xad87421e6cc000366b3061140310637caf9fbf3811a22557c462e52ff27f978),(0xfb87e59101cdfe7cc2808b299f384a44355e3dabe02160fa3bd4b67957862e0,0xb5303103a2e5dd1fd38ff31a10282cffb00e39d7f01632a8fe188aede97bb78),(0xcc5f2e1606175d7ff545fc7eb63b70e0de184c766a3fde01c5c7468a289e23e,0xbf2d3feb8daeb4bbc035379bd490ba8e0791ef86803fda6d36c5cde2299cc33));
(true,(0x3e6b4512b17ae618c1d0662ca22c42ddaf0a79e05325d02adff599027ebb95c,0x1e065670fdf3f746196d1231f3bd2b01c1147a236eed625163e184cdacc0a9ca),(0x171c80a2169b6be22909c81c5e37e937bc66d5299f843316c9f433e93fa5e9a4,0x1f99e5998f81a9f50438f8e8d9b6786ae2509889712e4f682037b7421409bd62),(0x2e5dc25afba37e4677532831f6770964e069f91471bb2dc6365408e25fcf8546,0x26a614972d7db8860b526aceef3d2e162544f2b1188c3856c31675afb21b566e),(0xe4098b32908b8363447d8c73693b9dfefdfa648187643c9644701f12c682645,-0x13a634d1f5f0d1f4f9db543ae0143cccdcf013b8eaf2eab17956df1457110850),(-0x12507be5e363639cc825df8b1eba66043345b8c55ecd3f650447f9a27726e728,0x4d74b592e9693ac1b3dafc144f54f6c66595c4a9c12bd3c5b781d16da023c00),(0x3a103e3f8c3a8883010dfb7c5f6b92345c842cf68f9eded3d7006f918d8d57c,-0x2e55c4dbaf3edf248615ad83d3997090cde91807e35490d8d07e72e6d592892));
(true,(0x2dac79d6ac9adeee72f89f0e7ebbb75ec36faf2ab90d1b83dc3722e14daadd8,0x2957491e68f2037e7e4b49ee3c3017bec41d3d26e71a545f2ab89705142ce38f),(0x1bad2b1d15494cb28963afd76db59614e30f1d304e2a7ff418160eac91892e5b,0xb00edacbd1479fc27bd6a19376aaba1147eb926eada13def3b8258de4bb54b5),(0x25d16899f6c321b85c1d93adb3c0f63848a3f41b148dce0637224c209febb35,0xe67f48aa1993da0d3fde57bce9a81e07a617b94235a92098f7f3688a6fd2095),(-0x1fc4c2469761d0637787ff8809957e498e8c3282574ed8de272feaf13b017158,-0x6c5ee8975e3b78dc32ca6530058de4cd550d806cd0d2da14441de91a10f7844),(-0x2326278e0c458483435164356916cda98f065ccc28936ecd1522c9f97173a29c,0x4e09ae24420215122b97807a849135c004b2e7849ba5802b94adc4cce71b8f1),(-0x11dd9df22ff5452b3ea2e6cb9ba2e8ec7fc75df2565cf6518056606d74e8794a,-0x2af5662b6bbeb17c7e68cd08115467c170e905835e72ec08db30cc2a925149c));
(true,(0x2731746b116ca646dba6daa02b0e96506e7415fe5b6d00225b81cf021c963a40,0x20d6191245f6ca9fa473cb35f2992a26c1077d81ab8360e5575c6cd53aede3f3),(0xc57b28cba233304df2c9fee53e2e0d42feed15d9e1535226b17204a841179eb,0x21ca0f59b8ca891cb6373cbc32b143de1fa6795ccf719385b70d7a898d561a41),(0x4ed7e1e7061b7f410e20670d87d21b6e86d68feca0710a770e7d0ad2887e854,0x2ece74283d5b2ef7ed8abaa8f33c986a87de3f63dab361e4c05c1d2355c1dcc9),(-0x37b3bbefdafe1955d3fbe9ce6da65a8b27a3fef6578b15ea4b92e7724d1c6b92,-0xb3765bb131fcdab7c87b8ffbcc0a721bd4d5e99eb0ceb0fd3cd71252dc9d3b4),(0x976433c933af077d6967b59d37a86cd58a0faca0842be01ff3a80d6e23bdc9a,0x35306bff32d68b4d08d5d71426d6cef9e87f250c6ddde3a88fc289cfae65d603),(0x1be15e611b065dc81f0a97fb5b12dc40840197c403df44c4a7d7588a231e1e4d,-0x80cb2e474534b45963158e4e8623d810c6bc95b0e193bfd1a08af950ce0fc82));
(true,(0x1c9a05605270cede16d51571307e2a81b95e5974c6a837e0601695d07146c8ef,0x13729f1d7e8495bf02cdb2ca760dfadc66dd30161c437d630680d9a0480d54d1),(0x115a38e69010e15c49b551a7360836427f18bf434c344db397cbb4adc8aadd99,0x1b5d8dc426a352299842b092dee4f731a538a304cd28c2f3f7fc1426742cddbf),(0x18737dd92280ae73f190fef8f5b24c7b3b61ecfa110a71c9881e001afcfb6eba,0x9054312b54da8225efd2542464bab501c7849cef4997dacc4c64965390b2474),(0x1d8a06a425feddcbbdb0bf838600d798c428b139cfc0a7f9b4ee029e7abd0612,0x794ca6b0e5af1777a6b29fc8fe4818961033344b383bf23165f54484ae64dec),(0x916d1173b781c95a5b5db4dc503d2aa896957d47583ed91981144b88c0ee0e7,0x16fd287e90b65f50c6d9ad9c00e2c77d4b62fdb841ac4330a379892000c46e9b),(-0x58aec2d0e8cb94ebebb2b81aa2f07a90af5a6604d1d44793d5724a57b797f4e,0x1c88d40aa990c5b2b9704eff4dfefe2118a735f246f2b9d4969f53eda30f1d5));
(true,(0x98c864513bfbe1cc60bc1e6d30e8b0e391adf9193c3f7d8452689fa4ac42a3,0x2f3efa356210109ed827b9f396a7edf18502b70c4c8de09011c7c1ced75aa5f5),(0xc9985a13b0790078f29c1bb1bc70c05e0418c91f0e87e6455c9edda62658953,0xd6dd0f6485d285b189e89d586613cf5fb76bfe06bb85dea2beb60e921afb318),(0xe64185c4db873ed3cd7fd1c12c65e0a925eba1f1e80af2fce921db8811fd8c1,0x129ea619811cf8a6167746d6cac8b9f343bc54bbd6c37de4416f540736ff9001),(0xabf642249566c63a03f9c51afbc976f8602e9aa8a5d216c9d20a965f51b29dc,-0xae8de5eaf3303d0105f18e7d8e62b9c32f10a389809c358403fe7e1096fa862),(-0x2e1eb5a0ea8f532dcaa117d3561cac3f02a2bed69c37b5d4a201d88fca86efa3,0x12a5495d1e878fc5fdb4a1dd091692ae686ef6945b4aa6fd2d632a9dcc6fd58),(-0xd8c4171b189085bfdaa4a8df0135a34e5df50f1ce160cd631d4a93970d42864,0x4cfe442bdb0c55e3546b48b1e730d20ea61bbb828f7ab7460a3f9b8fe953932));
(true,(0x2cfb892fbc4be09f21314fff2f54d711ad457039aaef9c0217839698df558c95,0xc6388a4d1e5b57a0b5510df4b63de07aaa284c2615acbda7fd07ec7130147a5),(0x504ee7ebc1f060078b928a4a7bb627070237df75ab95873cf14a33c0139063c,0x1d8efc265c4c82cd830b43c6491c82f96b7ba695c47b7b8fdb49a1e3e51e625),(0x16d07063dd2e35eed6fc24ef3d5dcfad0981ccacf6b673e96449eda0b3d34f4a,0x154f87e3b6192085f1a1f6e43a218f6409d2f131a580f36051f56d84d00254a0),(0x128f0864f7e8615605aeaae47bc10fdc1872777e2487164a84ac7bf99bb735f3,0x150168914e2899550c0bb9e3775085f75497660e9b7295328ed7cda691077c9c),(0x26a44ecb3bbed7fec79eac5b4371d7bdde8132889e2cf9e1c14dd4f1bced1592,0x170830e9b6c8a377b9f7b1e254ee682eee175ccf4d256338d4eb9c8ae3ddeadb),(0x414d5778318c486db2c332f84c107d94e47db247e3c7e55cf754d2a2c8407ff,0xcb4cfc29b82db84179259ecc061dd22f9418f7c4f78faf97cef7c4f7e6c87d7));
(true,(0x1b68daba646cc5def917fd5c5f9ad7d1fb44d318715d29a79d40f2c51d4a8dca,0x1d2014642c9d654a21e10588886f149eed5de72f2b6e50f96df8a953d5b8cfaa),(0x19fdfcd859344c0132d0e0fe76592dc8fcbbfecabd209778282422e09afe36e8,0x1c99b89a4e25fcb034b6239e9af11b4f2bb853ab96c124b857174f61b44a744e),(0xc8efe44b8c41b0f1d57ce7b8821602c8f9774723612b3e3860f3b52f7db74d2,0x214b19305e1136106bf17a02127ff6389d4e37e89727de6a7ef4ffdae3b3596f),(-0x1287a768375d9e6c9467d8ff057524d6a90fff0f3afe6355bb6d61cf86055bb,0x32741c6b3de080dc7d698e3c587c65ff91098494afc9e8d73f0d350e1c16fb40),(-0x20122a6b1bb0698621d4a66f8fae89002f5ca6b83a7182867b7362d619e8c20,0x20fe637db17dcf312331440ae444713c93a3e894ce7192ddb690e738a6147ed0),(0x438f4693fac565fe90a626d1d78e9e355aa04bba4c4bfbecaa1ca5ad866816a,-0x1bc6a8ee12b77c8968ff4c9c43497b64e6e022d92d551aae6187b05eb3f969d7));
(false,(0x2b077c3c9a4706a3f79b7b3e3d0694237a0d2e6dd9ea92e2e0682134fb7abdbf,0x106181983f55ae45198277a37f913e04ef4f88cc4a0708ac6bbc0da34bccf30d),(0x9eae21b7442f40d59f3def31c22b5b44ad43d1d5f638dc64a6962a3fbe25139,0x20de78599f4e46d0a3705176d2c72018a6ff341e0fa85d1fef64ef7f6987f447),(0x1066008383199cc7f8a9ee3240a8f3975a66c3b3a92d93cf213ec1dac64532e7,0x18d09cbc2a5d5722d73a58e8f3c7c1d31c320ff8883de79c8a434b5c567f812a),(-0xbcf43f656d11418f913de742bf579f61172428db836b440635ee7e078f8077,-0x3612448a1007f6207e5ba1936a8ad01c8b7b7bf50031e949ee9fa7497dd0069),(0x20b74556db2664c28a8ce88313879004d62f7c2143d4a140a96be70c267adfe6,0x1d21992700976f24bbc496970325c003d4a79c91503b55e233ccd033875ca6f9),(0xfbcfc9aa2469e86ef07b3f821269604a7299eaec6c7f3cb45d1a50930840b1b,0x1a55447786f3cb21fcd239888a085e2607729d3358c0bb9a8a7c0870c2294e5));
(true,(0xca238344bc1a2414037bcef05eb5228f675e287f23bb38be6af23ec1f76f75b,0xc0787363171cda1d46d5281b3696d70055191e366a42f202e55c3cd577d61f),(0x1e1bc4d3a183e768ddb586c779485b9df2c691d6533192d7f8d62e9c8e40fc4e,0x2cd8d72f94ca0a324d36340f6bf216e71c001bc2148fe300b31900a6ea804a2b),(0x1156ec7b01982c7d2f5b06657571a6937ea549407683adc0a9bdb19f7183c740,0x1d36a53d4d2459ceebcb46e81af0e6ce26bfbfd5bd58a419903ad525324db6eb),(0x44ab9593538df621ad17e4b58ded88b3e1eab8f66e8eebc6c98316c729d2ed82,-0x1af376c68f42ead314e06494b3de29b087eb321d0bfc9d832100fb82b5565494),(0x3495e58064d760dd0031726f4d8b9f35fad8fa2d7459529956e4b6da0722968,0x647f26fdcf3ae4b7c59de2d2e785429c05e7735f8e8571186a5efe7f0e60a7),(-0x515cd5f65f66e6406709c485117d1dc6a797c42f3d0be0492c1aea8582a31ee,-0x370d83a41af9ced796d5b1f65fa518fad67148cd6d096f6701676aa0dc996f4));
(true,(0x2a8f2f12a7f026e3d3446f827f260272d53d4d0d239b267cfe345a34a7bdcb1e,0x1103d9f11d2cd596e2d6dfe68f8db09a1587b5bc8812c50682c9a7b589a46250),(0x7b808dc64e6cb2468ec6f2d021abca4fa3cdf2221a05684ade5fc59923788c,0x2b5ddadc52078627f33ed5acc1b5f490cb72d3f1713e5ed1631505d2d1e32570),(0xcb5bd5face2d0b07bdd9b2d002c190a311acbdabc0d85cb6d3059f3778fc029,0x7d43dd75c4453a1eafa9e19b8e58cd5da1721554f520d630bb997c16630c8d7),(0x4e715c3547d9f75be045732638ef886eb01779eb208f81fe8c9f0e7e41fcc909,-0x67d6e38c2b5b373bb9d2b85c132602173f36fce8dff935b1c5d5d862344f8238),(0x1f7276490c680de6c058ab10cafd19320cddd138f01e5c62b2237539ca8a85c4,0x1dedb593c33dac763c5d0ea9de64438a3cce36fedcfcb38435ded051d9fb1c36),(0x1988e787aabec48197acb63778f08f56a16179622f699511e878c7c19f979f85,0xbb802d5a1d143a2fa151348ce2b5443d0ebdb2d0b748c55e3563ce34518fdf8));
(false,(0xfa334fbe2aa6f3d795b1298a9552583d55a6a0cb12b69419fdcc182c3c4cad3,0x13e39235a207cf1fa18f7b25b70e50151c7b0c625ce15f632c625e17043516cd),(0x24443b151010a7fd566c133cf8f17fa419c8448788e0d43a8a9137032fbe354e,0x7857dd5ab306139aef25ad2ddf25b242ff21ffd8eb6e6e1c6bb38450d9ceb11),(0x2f55db47b689091144b1d5a1fc2080dfdfae7836e98bd010b4390ba3e230be44,0x17c7a1236497f856c737798d51b4e46c0c0d10f0a0254cbec092e7435fa2344),(0xeeb9fce3d0b5e26b59d86cab917ee70f2e844d31029a8d0681926e69147e5f8,0x3e977ca56939f433c80e4cc2ba8369c60bb54a2748f7e63fa4ff71238b0ebc9),(-0x31f0396e980da4716dfb9e13297415c6313305b6f94638fb255f6e82ef91441,0xcda9f12e8bf5b3eb3c48f6f0dcf5f36989103b7bd4125a2b0ca3e145b8add7d),(-0x1a4bb3f771bb4aa6b2736de4bcd706cce903405edd4ebadebf4802d7415bd96a,-0x31fc17a3e2154218c18aa192efb0b614d3afa8c7665689b43151b8cf32bdd98));
(true,(0x912af4c9a96338f7cf6f59fd02d1741a85303f713b53a5c2f6db7d23779c3ab,0x1016603ec2d90ab9be9f2b5eb886c02ab180d51dfc4d859603fd37cd823423b4),(0x2a6d3ad68add3a862d9b469f7207e6953c8c4260a5f607dec0406335f7edc0e1,0x9a07e0a0f114093894ec9661e4e99980fcdaa90a73c55a7d97ff88151030c8),(0x12a5b38e8a44c1b82d155c66c6ecb15ed56e5cf87107b926f105ea310129ea95,0x1f927288df22241b0f1a2f7b0b9a5b9983e990216c157d00c9787ab3760db61d),(-0x3d44f8e5c6f1192741e22161a69502c66ee9714d193cc4a98725a039099cd047,-0x1ca942529e23bf1ba246d246b5090ded140eaf0e99bbccfcc057ce316e77c84),(-0x3a5a28ceb3b639602138e0dddaef3f176b1e08c282818500aa9c24d65bfbd8c,0x6084f3544ade9f5fd758bd4b0b7eb2703022b8e5a1129e90a672ce07c814f02),(-0x37493c1abf977157f96e73579b134860ddf8ab7bbe100a7d43940c417be88b2,-0xc0208cf1c5a94ff93089a5a6b5e580fac7cbe74cea7ba70e6c941e447be936));
(true,(0x136b2c57be5f5193b496908b0ffa9296dd2bef567d3fd5024ce0b417fe53359c,0x190834707b7418b28d6af27818c81c266b28b838052c539516542fc5050d8d70),(0x17a2b49a11a4a18a1e03954c395fad6c0fe2d80878c3c2b35fe086d2daafa5d7,0xc96a321ed6d32f2690589f9078bbe790387df19d8179dbfde919f16b3c83ada),(0x595beaa12fe349ea052668d4d6cb197f6f06302c7654e432fb96ef963973e75,0x2e270b49768420c020ef9db3a1d5a2bbfc43250bf93628379b1fcffc54305765),(-0x814401e4bcf6275861ab0799ae4561f769cb647a6b396643b896ec326251a6dd,0x29770b5f1df8479a51f0a053d22412a2df6e805be1aa2bf7c2c14997028f70b8),(-0x527ff3533c7ddff62db5dee97ecdd1b5f744615998e5e31ec52b175707572af,0x1416f656cc67f7d735a3ba1ce1503c1db9705a5e24287d58cf11fbe6e0482e3a),(0xdbdb05ee5fac6461525edf10d943bf506dc3f434e52f5bd60f58dc39deb22a2,0x4e90319b644b72b764f73b08c52972fd137a978fc2b8ba25d31ce6fdd564fea));
(false,(0x69e2bbb42b3797a43e6defda5c664cf7d86b3fa954ad10e7ffe9072adc6d95a,0x395badbc64ecac6fe9c584aa445d6fabc21728deea41a800d7c6c2742d5d167),(0x1ef26c1e57482373f4e99c58289183b481cb98f45363fbdd7e7574f427d920ee,0x1cb556d9c3d50bad6bf61bcb5f5b43021f973c909703da51f57227c49613a5f5),(0x1b3c85995bb14f92102bcac3e00fc227453b849fa84da036fc6a44ad12bfca85,0x2e775ce1fe9d2ff01aff6d209b83d8ad51406570ca61f4a897c2ca3ad0fa476e),(-0xe91087d96b4057eb15b255bcc37d7ac35e1cb74086391c29059567dbcdf827,0x1ccff08ea17df5aed0b577343e764bc4f3c278f968a1587295761f732d258ec),(0xa3b3a15e228394f31c504ffa74d0d23acc81a41d4c01f4f0d4d949f73349f7,0xfb026e088ecce47c9edd8faa5aff5f59cccd76d06a253de39d77c8fedfc3cd),(0x31bd5880263f7391ec2ab275dc03dc652688ba1d85287c6c764b5ec86e574b,-0x2bf01d873cb96dafb47c7fbc33f4df3ed865685058a7f70298557ef84f715de));
(true,(0x18ccf3a0c6eaa29c89947c06d4728eef10469ce23a48f545bff61d72e372a15f,0x2082149ac42416073bc1aea49357f82b34de889d33e5491794fdb1682d88e48a),(0x207fc16c7920a0ee593da037ca0231b27bf3e0247178303ae9d138524ba6b2bc,0x4bcb57271a9efc1954c2acb79a59192c60743549d2af6a3582b3e8f60e27de7),(0x1b432f20e8d9039a4b3627757ea572e811db2cd57da7872379e79ed5f3839245,0x1c8950cc04c44bd242e1eea3d145081d62270a9fc5c236d316adcbed517d1920),(-0x2aca83da09e774c86db7827f4c47f59ccbc7e6a43f45210073852b2b3390d725,-0x19ef48780edcd00b310c7d5c284af141b47ca49abf420f786abda34b7e6b2584),(-0x920b4ddc0e0eabdf9fb1a0e7f66ea0cdda18cf30324df5ea0516c6cf379f5ed,0x21520edf5595a9b402976bcde00fcd1c52e12ba2952f0e3cbc8ade6b905d140d),(-0x10e6079dc53841bf8b24b799ec30d89fc3b0954b0ade2b1dc8997badd208fff8,0xb3e145cb82381180fba0fb6a3d5a1af0282dbcc743825f21da95aff83bc65a8));
(false,(0x82c491ab3910d781298a831a32d90e89e6dd03a24483c7e8aea50758e15f3d3,0x1c458b4187f37627bc9bda225f0a39624e49e4db7c3676260d52bfe05fe6ddbe),(0x2b4ed29b1d594474590a7bf0782c8277be864cdf1decb605e06a057944340343,0x2dbb94f1d6b3ee4f01cfe03c494dae378909661919e528e457a1b9971d6e3e59),(0x270af57329920c49528d04380585c0582c1aafb9685b59fcd7c18ee305417227,0xb0c4f944c4f40afb4ba6114cf11218b111cd4ebec238db7768467afe1c35ce),(-0xd992806ddc917315b58b5a02262657c57a05b532f5b3831b4afc96ba7196c14,-0x172729708d4f9e6fa90931f1f3a77be2a36e514b8a80c6b9bf32311edc89fc4),(-0xf22f9b9b56cd7c3a06884dccafca84d84f104e3b2330ad7774dc08412f71141,0x98cb9e9476dd848cee63926287bd32ba204d192dcf6bd624e9f56e66cd2c33e),(0x16200504687f4184f0f9560e48b4ec137aa630633acc3fdae77c84ae1315c43d,-0xd3d162071d1a82a99d02156482bff6e67912ac2f1235d3088946d98ee29703a));
(true,(0x214e90b00477811473890b7d4f2e2de7156ade98b9fafae152b9e7e5ac43c2c1,0x19aefc8519bf8709f7f676dd0a258ff5b278dd05380faa9f5d540a940776f6dc),(0x2fde1dd1ff6186d64e75c818ebfb4a4d95e623d31eabc53cfaee9784a316e4b1,0x1b6d73b4bc463636a2d3a7b15389598d8635773b75753893c555cad43b165483),(0x850e614fef4c8401053339e1d150591d37b8d54a9b98b926bb589066911419e,0x569486a3c937703b585732fb57697bac4273c8a4aa119890ec3867c064e628a),(0x426581d0ebd760bf866d3970c7ab19a227b78e4afd8346346c4ed4dd45a5cc5a,-0xcb2cdf25c874e948449389d2b6a29f48ddef14a31410574a2fa7a0e26d945bf2),(0x94b01ca2ae7967c3903c3ed607cf1fa5c1eea39ed9045786d7f6e24f90e6df6,0x235acd23c709a47b0755886a67fd154155ab3783d7e97f8baf13f9caf67c8ae5),(-0xcda8ad602a8ddb34f06e01ebc233c452045df30f55875de984a87cb876bc90d,0xa2dd0f7ddc984943dbe8f74ffe92533db665b8d81d9e3c8ce6891389578b7da));
(true,(0x2d2cdc05652a9d4a148d3aba9c42f3bb12c45c25094d6353d1e85c3739ce829,0x1cbda5b40e3e788a9acf04320c879391c6ca5098277d0a3d7dda495bf2805dca),(0x4025911074425cedc40ea6bc1b9ef28edb1e21681099343dc522743b0d33cb0,0x19796915ba3c6a10e38989e99719de6032f5885354a6a78d88af6e2de9d6d14d),(0x7f3e4d729347452ff0cefe66a5ef0938af9d4f1a2942ff7eae4b1fec10a1149,0x140339bb0bda3add83ac33b3124332b492a4a768110ae41c55b1f0d92184df86),(-0x64de56a923800918814cacb63bd2e2adffff474f289323b08a3b60d2fd0c992c,-0x9845f02834ec8633409577f53865a370bb7d3c53733a304beb4ea9e5dc77d5ea),(-0x10e7ac0f5d5b42ad6dc4495acd5074848734849366ec1b4b1ca37fc54a965473,0x35a92c627c3df97dcbf2729172a71cdeb13e29dd8e88d570d6c4ca5bd1e1917),(0x1661b7d2c1f4333012ab703f3bcf5756b5495e21153c71411e7f900bfa46f2a,0x1a298eadb64bd48526d0f75f684dd99969c31be7afd4b339ff368044b61495a0));
(true,(0x29a15d9fc49d11df200df5a0519b879972697051b45e237d3c4034c0f219a8d9,0x18f018f106cff844d1be766de29a9b50450a94cb728a917f4dde81e09679e142),(0xd6067c7b9e706a77bf1e3841477abbd25ed62b11dc5124d88d95e42466ce471,0xc07260ce517bf76a8796cfa3f570cbff41b4d51b0c8c75b734e6e128b0b326d),(0xa5692c41bc6082b451ab01c41665954c9beceedb96d1b554aa89a59fd70c7c9,0x18694572f0edcdc30896cd943a757bc87905a4897f2242b673731366c3abb5ca),(0x204a605de2ca2ed0b8b5ac456376a5711eba351fa3c90c8b4d689c73d73b7c33,0x1df7622ce5c54c865bc436300704aca18bf900dbc0decbe8a6aa570c726b3750),(0x16f6586bbdf4a2ae2fe4cd5c0a0e855af6b4f8e2249f7b1c4c9e00db68f7e004,0x2ae82cb8faafc8a08d510ae8446780b69bb9f322938dd2a67924a8be33a306bb),(-0xefce6c377d6511a3fdd012ac8185bec5850c0e9cb8dd0ada50ead586e0d14bd,0x6bd7fc15206c0c3eeb6cfc7d7dc7d029c2ad2c345f55a8e9d618768c2538ac2));
(true,(0x11b266054c7e5ed17b2401402524818eb499ef4cbcc41afb5a05beda46e40958,0x4ce82a1dbd9b95a90cb3312987d7db3f328e4fb97c4307ad07f2493cf0b9ecf),(0x636b6449ef6b8a6677d482276999c4b82109004c1fa11d258e37bfd3a7d4248,0x2f4377f46a541929d94c60d3567707e4aff4180c824f6b6a561cb6881005cca4),(0x18d25a600aed8164a356c5103faea538b2327b86115cbdc35d662a58891a18c2,0x1a0e159460d0ba702507110fee7fcd87f211f556c4efbd38b69ab66c3f151ac3),(0x967ce877813d615779003de59b16756a3e6f936a64891d834befd5457b9404,-0xa6708851f5bc7310ad7febf38ae4af03f147976d4c0179c4ae5cdb0c5a740),(0x5fe8a4f81d2fb90c9b1b042bacd82236f4ac39ee9754f042abe1b00bc085123,0x383fe83c2501001baeb1cd6c06af8e2a78aae650c02196a891bd5c8f7bf7f9e),(0x61e8df9aad047156201b17767e40fa8679fb009ea382f365b22cf8e8cdd9fca,-0xc2c96e7fdaf3e0e2c949017a609250eec94b751610ebdb6fd0706ed37482f42));
(true,(0x2658e7c9abac5378063fbca0d54323414f1c00598ebc9c9c09fdf21ac873ccf6,0xb4cafc51e277aaa84ee09dd62d65f28286fb7b14e891a59e10ed3c0221b0986),(0x1d7f109f5857d066625d13900879f593d8e783b165f93e03e269af8417d24e8,0x1dd34c64ae8e403599bc59d1dcdf8f2be051f078d70370034932d73a5ee38755),(0xb8ba29e60a3acdcb88739dc49b82bcbd4fa047ec74a195d564d266b06c74399,0xe4f4522fe3bc98565811eb4be692055d65a121199ce50626af069a1a5ab2169),(0xa3432f730c8c50df2f8d87c363008a0cbd949e9f3513d0e4d12b0c79bac96fbc,0x1078f2ff95a552505fa0984fd501f27200a8b38ff847d3ad5546677f800ed404),(0x1bbfcba9baa099141835ed60a298c54ffd9d0e7b098293956a804e638b969cf8,0x11e88597f4c8a0021f4b1ce1bcead8016fd3141fbf9cbccc41e5fbd4cc32053d),(-0x9bd6cb2827b98e07fb79caccc699922aafa20d6412c84cb8a15ca9752d5263,0xed6ca86c6b96af1c739acc08c15a0224bf564e1ddeba0913596b0859fff2512));
(false,(0x24b31f0dbea747a29623c6b695e31eb34b6d45b372932bdef311e48f53bbef1a,0xdd9641952524affde5fd8e11ae1cdc3fdc671bd15764f0289e3295784beb376),(0x1a3b930074c239ede82cc3fb0e474a0e00f71dd6a23001c67886cfa8f5740ce9,0x2aaedf44a6c7be6fadfe9c4ba0ce66b9f6305dd75c7b1a3bc7b381b1f64cd80c),(0x14c6bd8ef0c4c0d8c790f7a18469d11cc6ea2f862b53bbdb69cf519ffd67cd13,0xd15d58900a736fbd3d7232e48a3252bb605fd0de1b875a08d043e363a61dd28),(0x1206fefcf0a488d86c11c2f66945c639da28f810e9cd8adb089ccdaf49c491b5,0x31ad2682531a1e86a90b2a3a80588964253c8e238fa359441048487e5cbe022),(0x17de7b0c5edd52b75318cc1adfd671677073a1bbe3b27ef604d3d47b261e716e,0x15018d364b408432ea709d24c9d434e539a073551ad382424c58721061f7b203),(-0xed11318513316be6e48d0b28d4fdd41743c3cf4961377f42c1ab86246146c34,-0x10bb23e5a85a61a5c8941b5ba1e1f8750956e69be701bfa527ee41751f655ffb));
(true,(0x1daa950f08a68ab8fed9197b3724b3d9ecf1c9e0219601ee594192211b091585,0x1ecaf87b0fa42a4252105db7c91cdfea4058c6c2bd6b919553b58e3bb5fa4450),(0x3867e8ec4f9644cf8e326fe56939cf6bf367c597f64ef78c7c48cdda245d00d,0x2a7dfae663757f15c624e13da1b43aa6ad7f218da22446cbf164151f1f72484b),(0x213b6633a14dca6da23b1d456ae3e7bd5fea9a3cc458e88da095a8ba95eb4377,0x68d71d4744173ecbcbce484b6d4d2a7792b605ba780fec2c5f0cc25a5213f5),(0x4f1a48cf1ff0f70f2dac8e2aef38909d789deb2c18c55bc4d5657dab2ce7d76d,-0x60580016304b8669148590fee2c7ad0f499c6c07a62b80e0fac8b9c6b0d28928),(-0x1684d9d332e65cb96ab52c42d59100d5d6f5e70aef4c4392dcd4a775b7dc10a,0x25c138f3d69d17490aea9b0974c30cf1b2d4c5006e22191dafdbe3990c1c51db),(0xdcc90a7c4794d19f5a476d7e5207ece7c181ba82cbc173d83ec268ba02e7bfe,0xe90f8ee16e3cba72d35073c915ee993f492039463d84c037f248359a88b0cd8));
(true,(0x1a5e38ef02aa0ac72eaf9cfc71e1d1f200a770ae6cc83eb4ae7421bc913a8d94,0x118ffa9309b09f3cad0e106e6823c167a7618532f18c20f8a7bb3b2500ce7a43),(0x2e3ec6849e59a96e63be0fbbe0b061b4eb42cc28456cbc39f7a14c7335ea5f43,0xe048036ac6a323b35eac175340ab84c43fa785b352f136714d6b1dc080a7e4e),(0x1e201906d42a3a34006fbd13575591d144de480c1564b684c2fb45124c903f9d,0x1f43cec18772d53c63baf0330f5e770e1ff15d4e146e0915b275c16b6388601b),(0x93152793cc35d5c3b60e3b925d734975fb687a26c58ddc68353887790caea166,0x5fe7c238062332acf175c472383b308865dba35e02afc662e9b885ce2911b88),(0x7fe6b7f65a86f3446dab809ea0d57a3536716464d48af406192be6e0817f706,0x132398ed4ee83f085911a1e2e8a31c9f1ff8732bd40a2a2a0895e4779dd378cc),(-0x219c8a2582bbd289b5748673abc88beb38c16946872a3746939cb0e2b9433de5,0x2ee7fd6bccfc5533cdef3c22d7104e25a303a134e1e9213b9ba8f2867ec5e));
(false,(0x73b118caf4e2521e7b81f9f0a06dea763bb7183d0e86de7a575dd7076d17f58,0x2a950214871388b94a69c18d5ad887b48a9f2761265d3129aaa54b550fdd2fe1),(0x200f8750331bd4804f95e3cb1651d46230f81d1fdea961a6d0cbfdbec0caaea3,0x206b0cec52d8822044ca8eec36d66c5c0efe59fc5e0d6fbeb308eccd97f27c73),(0x1d9504d274903c90a92590a0285402d5ee75df06b00292e8e1358e7feb3d0621,0x25ac0ea79f161c85d300d4d99f38a33167d98b1a348037acc69a64d4a6e748d5),(-0xd7a34c23c53abebaff9566902e598fae77c16d228aa84b30d86073993a83c67,-0x11d8e9eddda25f4549e31750a88d91f47c6e1bf1f289a24d8a6434a69eb53a5a),(-0x2463ae97d3b2e2447065d2fe14852e7316feaa037c37a090525de1db4f1e8d0c,0xcb9abc6e2c3dbe461388f0482fa92fc4c5e5e42d93c8f0537ac4b6631bd0deb),(0x124f99a244997b59e9b69d5d3bfacc4605c124352099feaaa15cbbdb48ced681,0x9bb7036be8b297d050791e37a6035d29bbcd06ff93411641bf7cb297ff80048));
(true,(0xf25531ad304716cbdf26fbc693e0dfa2f6d379723daaaaf272c76bf686226c9,0xc6964530e6879bfc983a6d7d53773c838573d410fb4cbb74a44808c03626931),(0x2c69df52da75d52dafb71b350d52c84063de28a55bda43cc8f0d229ba8479fec,0x1319da300aaad77f7ff9053fb28ac82f86c4b7f3005251464a14d3380aaf71b6),(0x25ca59665a66fd465ab41eef167389ea256f15039f6c8708d740f88ea8362f77,0x20bea888ef5e8acaf064fa26974e293ea2eb1df020892e42d6ff756d4b60db0),(0x9f35dda11a1f0bcfcf10c12d4681887bbfc463f9406dedcbfd4ab9c8ce24d8,-0x5a1c48fbe12e9d93fee7bd9389286e6dcf40841d71d10eb68e64eb82d12fdcf6),(0x18e9675f4ab9c2ae9a9bd0cd7a613e2fff79140a4137de8551d6522cb5dcbd2,0x7c4efd7f8c795a483cf5522208c72cc11ba3cbb7a0f13ac334b6cd9ccf4bffa),(-0x7482919bd28fd2410a6d7a1b0a2413cf9a07273c4ee7b7c7740e56430c1593a,0xffee8fbb63abd52e13e2381a87f63cd97dda664cd560e0ca92b514d0fd8261));
(false,(0x291049d33265d1ef10677ffbf4e14f3113ecdafde76aa351defda083a1fa48ac,0x14c5691b28897f94d3f0abf67ec25cae4c1adf36d445e8d5e5ca3f87b65bacac),(0x239e69e6bc78cdf89ab9d745bab3b6410060d11c0b658dcfdfefa625dde18d50,0x14be3ed54a2974fd17ead98b7ccfb3018c7900836ed9b3adf6476337335304aa),(0x1619a10fbeb700e1cf253a3ddef95f3568faf4408281962e2f725fd8e1533daf,0x2656b039e6bbef0444430c4e5fec6923c4a1f87c2f03187e0b1dec8f873a4971),(-0x141726c30d981ae55b53b4faf4dcdfcecde05e2ccf8eec4050c19f1c53f74d31,-0x3484601dd7b1f738ed02d0a6f8d54991aeab1044730f1ce621ebb7495419f19),(0x19edfb527a7ee53922291b553c2f73aa4bc5a5646917bfb8a3ab5a65711294f1,0x23405766097233da2adfdd51f7c80ff3dc20fa2bda91dd7f7f9e4aac14ce9912),(0x82af45e49fb99e9e7c60c5c30a741b64147d44281968ce23e3631490ff10896,0x261a892d14b7c4ef4ff5ef35e2dd65d17d0de744d21b0f2db6885164d73b7c9));
(true,(0x2016ed4f2a286a948d0fc846bc53012372a09f4fa7c86013495ae030436d5e73,0x150e2e49ca315362cb9564b3969f200e38149044621810ab5339d5fcc7d5f614),(0x26ffb84bc7a06f8e47a63922a2ad9658beaed7664abb5f1e474c0df868133330,0x1cdc77dec593429a5059f051db4dc7b5033480b784b123de203743c90ef709f7),(0xb9861f31de05f7be2cc0671be9ef0ff6e691abb23d07348af9250873e00919f,0x70ddd4144bffa9e575022054dcf5f36a7037e3f8ee491ae6026378b9bac433),(-0x380789ea7bc2115fdc1eeebf95180900aa53cc10d155486cc46d1164cdf9842e,-0x1587b8de12e4bfe22093ee6176100dbbb797550dcde635448c8e8239503d2e0e),(0xc1e329f0f37565377c73d3352b4c9d822b7395a4161436efe9ab95c3ff475ef,0x1becaae18d50bcc70e12ccf8a834bda1906e628e70d4c953f75880ee50bd7a6b),(0x14a702b2c9283bec16c005f1137d909f0394cb6ac8a024756953603039b753a,-0x6da9b5160dff20b62286ff8b5afe730cce2234dd0a8802f6c587bd661b610ed));
(false,(0xffee9c50bc39c93ba037f5b3794a9a95b55b470a6910453df284a785435bce1,0x2e988a57cda266002d81f561157f3d34bbfc37220957b2064031f950cc3e4b2d),(0x21f2d2b8aad7989eecfde9a3f9ff9388410d759db95ad6eb1226a65719db627a,0x2f83b70194134a016135c171915503759f6cea57be04d39dcda13d1546d4413),(0x44ab2c21e22a0922011ad0aa4382d42671afd4619d582a3a850fac8e865bf8,0x6e9587a807ef964ad7a79aed22a39eaf23eadf00434a9251f71b2dbce468906),(-0x1c66ba099204297085d7fb2d22e36dadb8e3304fc17d18773e33d31e66b81fb,-0xf87fc23baa44be1bb3ca021530edf99520d4cb0225f13af3032e2bfa789085c),(-0x2794471dda147c6d9dde552609c63c3c4e29a7002d2455f83b8bbc7c618c68c9,0x1ecde0c9e5bf504767df4c226056bf37fb8df1de8d6ca29eea67c4c9bfaff042),(-0x1742e159aa48e5fc241ffc46907a8ef375db34bf22037bddaa619d332866e623,0xd6bdad636b6270e2382250b22ee615073bb0b367b9dce1257ac4d96eaa46d0f));
(true,(0xff14ebbe0095bdf0ae0da3bc30bd6c00f1f7642ec3b7075df700625e6cf8bb7,0x2e164ad080c5d48e9a529462f0e4c451747bcafe952040a5f74a90870689d135),(0x19c1e5e4fa16e661c309bc6def2b78258d0b97245d132dbad8a558652702c6be,0x241d46cedc689adfd6c56269f40e32ea148cd686b5f9e79fb318204a5b450796),(0x8c2cb2f55e57f3095f4d7ff0c54ad617b91a4fe71dddc848cbd88949344be9a,0x7fc94715d7b27db1dab72ba2a5550770a48accc55264a8fac2e191b048184ce),(-0x53e3af321533eb11c26d506b8d1e87c1e3db1c1497cb8474c795a8bed450b37b,-0x76f5c96feb1a36621f696a47b9506c9883a81fd59a3b68b9f69735db1e99470),(-0x26a3cc5d0be5855f5ac7f05a44c8023d64b0db87ea6bcad93a7780274b54c256,0x1e5ddb4e0e3aa70bfa8b5dcc04981f32d53445745ff6e155740b3f7c88a444a6),(0x2243c220aea5c83cfbc88b3a1527c12ec406b01e3f6f2d4fc0fb466d7ff34b07,-0x31e542625e26e40841dfdbbfd93977f60dc81999d6eb52bafbd44c9898fbe8b));
(true,(0x102639aafb37003ec3a5aa897477d5234b0830519af104eee3a346a4f52ccac7,0x134f0e67bbfaaeb9e7a7593e112d60e2b457d30fefd11e9c11539a548931bc67),(0x181c6ef8d9daee79379cf5a156348f1f1a6c82eb54378212dfa03005913120d1,0x284da66dedf1b16497243a13ac9b4f08dea46fe97257b850ff7d2589817e591c),(0x595ddcc6017be79a3503f31017b351d9f600309bc7562fc1f6ca2664c96d72a,0x1d06be5aec3b021d61e252749809e5429b45bc2932077fd7404188ce48ee82bd),(0x2733249b046a6a8b7ad143a7b415c5da6a89ca0312047e031d444d69cdca3f78,-0x67035b51a470e408a53026785f3fb86e0a3b12f85fa4b34a23fa9a9ac9d705f8),(-0x250a7939a38200ea8a3d985ca2cdeb756177292613155aa3a6528a72034310b,0xce33174e1f3c9e78f0604dce830078027637d280174d1f379e16ab1639b5a56),(0x23889ea32faf0b6d7b4864663a37b99213942265ef20be7f49ace06b7cbcd17,-0xbdb43697100ce901f60efc6d771be546afe4bd813af311e57bb80e6f870dd6));
(false,(0x26e50824fa3de573de64fde9e74050d211457e8f56107f08116916669c8522b1,0x15060559f3b9d3a53dd1332434275e5d16f880074baa1e429f3a81cb3ce083ef),(0x2763b4abfdae9040b38c57d8843c1e2a00d6267bf2d6eca79399883ec80d79d9,0x7f0fbed1caf07958ccb96b7756990c7f86bd2513dc6c208e8e8a5142ff5823),(0x23b9c0d00335508f1c9f1fc9b4fa57b4a5a197b625196f1c80755c0efd64ea0e,0x23e75a352730f89368feca92c6cae6853475ca593d60d2a7241c4fb3b205530c),(0x651e7452099483d595e93a05db7cafff1278f0582dd2ad7c108285b478c9b0e,-0xbe62b2ee80daecad898d102086dff8ea4984f2753865803c860da66f9a5efac),(0x1620b946c1665f7b54f455c7f494afa60d712fa2925e8aa7529eda87d31cbf8f,0x21cb89c932879398162b7d39c5e6a913a41e834d9104c00328245c33c2b4fe1b),(-0x1d92e646fd14e4b0c172653c3b5f03522c495444f877c80ecb20c462b8bed291,0x195b66adad83569fb741f7934b6ed55b369cc100d07a37681cfcd46e523912d8));
(true,(0x2b849990f63cb941e96c2acf6251c77662a8bc8704bf57dc97a005c345593021,0x26acfe7eba515740899ad98d4cf50fa7cb58e1ca0ee81d514c5de05ac654f806),(0x6d062b8daed83314458a6135a5f57f057286587ae3870f38adbb9164a0b3d76,0x1c758ff1e66d29a6843617f98724c89ce0451f2ca7ff78e381b530f5337315d4),(0x180ba4c4cd3fe98a5c700822d509c0d3ec03bb431cb2a2d98ee7a11270e6867f,0xcb0446e397439d030f820604c53f5f7902595cf9a65198298ce713ed4cdfcdb),(-0x594e2ccb0da2b7137d062ffba8fe90f09ec9888d9969b676def319794bb74634,0x7741ac65888b5d52601ff78f4d6ceb56102ab561f49c8a659bd19284fdde3b52),(0x83979d58c972cc82941023b7e213c695db3fa1488652210247932a274229be3,0x458f9a0d1c493b9ff6c810d5b84c8d8c73a15c81d813d7f270623cee2fc969fe),(0x33a4a313a2df06a45861d23914c2aa36a14a910b17f5fec3e4ac5fd178fcd8c4,0xe370062288a1f0752b1b4b30e7abf233a722030874d4830b70b3c8e4ebd196));
(true,(0x175d79c41516197a329e9ab313f97221f6def17d3ad0d564329b97cde5a152d9,0x19a6e1dfe002ad6ddeb59bdc5a63e648904b7a5bcadbc945e417f503de81feb5),(0x189680f6648135d72d4b13ecd79692f44f407e07e88bc2a7e79c74658d9b25f,0x77ec0c881a908c8bdb7f6b1a3b3e0169f878ea991573ddf7999bb817940cec1),(0xd9128062dc730f43e0613bc5d50970eef4dc03ea27e78e85e7846340a570d8a,0xaa6dfe8854d68379e0b2635045b1fbda42974076f9efdf883254d4a1b937b4),(0x3919995a9b4b12d6c142f3b02bea1c14cad1fc60430e11f306425f1011c5cbbc,0xdb38de4ad85570b11d71a26a3df76aff4eb246e1860707e011a6ce5f7ae3d14),(-0x250f849a3bd6c3c614e46d61dd8f6bd9656931a6857c4545f19d39caa033595,0x18c5683245f1198455048939dde92cef5f295a74b81f8a77fe254d35115b0887),(-0x8909489c99ca36b04bdf919f5a09c9189bd7d01a8fc57de0150da6262a7febf,0xceb67f3740d4b5cefcb8fc3a638c8f3732555e02c20cf504a8b09bb089e7339));
(true,(0x1fca91962cf69f7ed034f1b86dd903f10d6e0b0b096320739454f49c79d72775,0x233aa4ffd8ab5389be4681b4e9f7d49bf87f60a7d491399a2a657da8f8567f3),(0xbf43c27b20932e389d20d3e8681e59c627b4fc557c2df40b0f6031526b39524,0x1e0eb80af8b523357fc999cc74cf6c4a7a0eb2948b55c903db6c0ede0566b588),(0xcd15de8faef174b171603b92aaff1b40263d0f112f444ee33bd70cb1bb1518c,0x272617edc965e295dd03d0453370f3dce461a7b9108115786191ca2240f84833),(0x1519fc2d2d390ec9ab9eb027465bba64defe0fa22d926542588097882412cd74,0xae63f810cb550c3b3afbd0972ac73e0b3d0340d8e03cbff370a5fd077099e6),(0x14c90855a93fed8ba9bcc20571fc347a141cef4610900cdf509b9a6bdc0386a2,0x2e49b33a07a240509e9ab71e16f61fdcf38c277b6dc858eb889062594fd264c),(-0x5d12ed9d0b5e1c5d875398d588ba81081b2febd65247b5ce5ab7c5ac49c5cf6,-0xf4be4d65b172e03785904a49f17b7269a305d9197bb5c92b11409064383ebdf));
(false,(0xd6aa8670d7958cbed7876cd23ae3f5c738ce6ed0ddff140059f434cdee4e1ef,0x22f3bbdfd6d84acd41f38b6d2f64fc3a6577149a0ba7531c207f8f99b576fdf5),(0x1c5601a441447e00ba36653d3bb13e4399caed3244448d451e1936927d99f96b,0x30c789745b5bfc41c2fc20b0121371fea71bc4f30ac21924e016568919c3b7),(0x2e2718c31a9f5882a6199763580bb8a5923aec45cb0dd8091f7153f81641c71c,0x1a612d90bacc12782835e9f72394ff0147502d7e5cf75ba8b3f5b59ffff3484b),(0x697604a96f1c8f27135e221638c03defdcd83b75cbcda63b0a9cbb619eea241,0x77484311960050c42ab531a9c2cc268e1405f87cf72a3eb9685ca9a2dd7404d),(-0x158671a19495498d3b0ee430f45159cef0c1390d94391988ca0780dd27cd3e8c,0x136184ab540b8e9cd49a6db26e9d486070d40d351560fc7794b2160046414d63),(-0x1a1d2ce7a5edbe1af863f8bf3c33f5bcfaa2a980449ee66a3008ab29699d0b5a,-0x38d359c8a1851fa1d86e5401d0be8aec7e5f3f24e0438516b49814bc7fede1e));
(true,(0x2b84a541cc9841273992e5712cc5ad20c08bb2b2b2380319d3d0706afd2b596e,0xffca5904293a66ba3d40dd1609f50ad9b6c1e08db52ce695920fc84f0164c5d),(0xc195c33326ea711764a8e595f816409d15c80dbabfacb39cdfd25a576fa99ce,0x2b98009f168a9527524772ab0938974c0b7bca1230090eea546b59e3cc19936e),(0x2a4e81b5ff7458f27624032716f0c6285ad95f2f3c92a587e60bd5c605cb151b,0x2d6cc30e06d7bbc8bf7db4b76855e05ef2cefc6180f98b51ede94fbb5acf8818),(0xfce168053b7f3d6c50464d70aa8139a769376f0d3570034132d54479d16b256,0x4d4546103ab407d86b155a03c174922cc9e06f055fdb0fef90f05c49e4d74232),(0x21da94005586d179ff8982c0c57521c545b47ac8d34746dff7be53d63b3683f1,0x1cc0ee02541c1d714e8aab448a6e555d3165aaa312a9af220b7af070d008a070),(0x1cf0c376fad5981d0991ab4e7d58cab6bbd1d23d8592cd0f9529eecd81e0df76,-0x21aaf9c6bd282ca808bcd1e1d4e9b226a980db9466e865226d365d3ef7af7624));
(true,(0x21e1879cc1d96e90c432f76ec691c9a042cae821b75768ce65235e35e5edc8a,0x17b9afb6d33519c41ecfece209192c2ea2fb922bc88a458ef9249d5683777ff4),(0x110fbd4933c0c0ae4b32266c1788b78ee273f4754f48047c26966af11232dc9a,0x2a65a93c9e545bf169a373bef8213c85d04463821e70018877f059817c5ab6ea),(0x111403b3803542385c7e5b92ef739b16c617616cb9bf85d5146951ed70d9b880,0x17fb39e91f82a6459a7fc02cf6a59a26211b7fc9b9667c5ca0c36c4b3d0c48bb),(0x43e67aa1d32f13205b2ab12d311528fe19a7ea1818fc875c442d67d866e2af44,-0x13eff2ced563d0f79c1d54ae0973563099d45d52879f14025656cea09b837e40),(-0xb8a0f522c65fb531a67b72e795ebc153052164d5be9c4ad37151b89eead9f8e,0x2138d7c21c2dc32e2870f3ca677b42cd2230072312220bfbc60a7f0bcae9d66),(-0xcdc8257ddf233fba4f37602ecf5ea3f43d0e023d47e32c2bf4c8d62fd5f105,-0x2616e5a5f06f55e3427ca27b48a5231e426f2f73c9a4596e71708413e3a208d));
(false,(0x9c5c5d9dc1d6078d0c7085bd0ed368718c2d33f9f28a0a4d0cbbf4d9a221b9a,0x1091323c517c53f1bff7cccccdaf04ee9fbdf52a4891a84609269393b0048937),(0x2e8685cb83bc72d476f73f011bb0662f0518e8ba7f4c9174f5630d7c01f62611,0x2192ec671522b73f85f4d3310154bc20004866240cfd4fd91e12ae133ea31e2c),(0x27082f7e2b7f2d68d41c499293d8293ae4cd69d429b2ecfb72df7b8156f0d3a3,0x1963d53a9e346a9b1489a44a944b06b3455b490e78da4b98c8c9190fa46572cd),(0x72ace40ee337aa122927a921ab5026bedc83bb65461d8cb82392ff3cf35ccc4,-0x10632bb62cd05b134f2778b88bb10cc5eee5088e0c7d26d6eb9b36eb7758ecd),(-0x3b2c524f1bc3975e6cb680672fcfab4a2bf3467c01af726e4eabf2a31a40d93,0x6b0fce800bafe82d4a9f64ac7e478fc5de0232c0e3fd77f16b932a6830b4f0c),(-0x8f886e7c456d5e1614069e3fc985f64eef66703f59ff9e305e90d83d5a0639d,-0x84e2a12082f024c752205e7fe257b6c7dd470fa917411442754ce168999d54b));
(true,(0x1d0cb7dbb77b20b169ca6fc1004b95d6db8b78155d5af904e6441f602bc9573e,0x140579b78e35b41280894c605a2cd9d50172f745f5049754041caf96f11e5927),(0xfbf1c5a6bf0a4be84b835e69ca3c8b073eeac02c951a2be93b6a4c2da50bbfa,0xa79a355190f00e15beefa87668d3463c97b36524fe131b64d85ea8d56697799),(0x25455ffcc10d3dc6e1c7243d88dd761c58c08e1a37f047d94688ceb7db0dcaaa,0x201ef29e6ee4dc30ef922dacd8690b58faa15878aba8faaf3ae5fe6fb29bda9e),(-0x2675f77f3d2ddaa3d6dd611fc498e49b87b76641f8a3c8aacda63f3477f84ca3,-0x82e4b0c761c307235e2c0ef477b7931190a835a92b78db7fc4b7fb7eb36c39de),(0x927af2bf8f39e555fda502a7cc3364573115d4a16bac091b56c92f9a306c0d1,0x1809a91cd18100121910878efe3235b4e2d8f9990d76461db4901c1e3b53a8f5),(0x8eb7d48f61e3b0742e8d369336d18a5dab09e9f8986cd4fd59bc236b4a74020,0x1a99bdede917e985373c3af326f729503c1e1de53a90e963902443722f16b2d0));
(true,(0x23332f9726ebf3718edd875bfc5f1074bb02cf853ea3cebeedce52b573fc02bd,0x208f5fe413acab69564ea47dae53daf76ec4191237900f1c769c1aa33cd7e6bb),(0x7bb5cdaf1b46ce8cbf4650f3d6dd6050de9f7e66f7af0aca9b6a0d49e467c93,0x20f2cc4547018f193d7d10757a45d6da321581b683c4260643e10dffaf51c6d1),(0x18e52c086b63fc18480b7edb31bede740fbe72cd22cb8da842dacdcd9e886ed2,0xc3301f746a6450fece71cb771f3e6c978fbedd7bb7a48fd07c9e65039379b7),(0x26d835479c0846495ed3eae69f2f879d514f3d202737999e3e2660acbec76b1,0x4c6ec262c883168a0d66e38a60993f6b31665ab32bbf3059923e08f4ce9b1174),(0x3b24bb7e2ca235056569f5ba3992ff432694de8bdd6631cc67e3f093fb73ecf,0x2f5e360dd0151dd91501c3e80b36c885a3d742360f09d370f02d83f4bcbe6a8d),(0x14f3660d0ce63785ba46a7e52e7b65491da75e1743f948c80caba0a000cc2251,-0xaf45076d8cc641d60268d184669e7a03808ef2becbdbd1f88910c1d222fde10));
(true,(0x14ba3b3be4ee6a51a3e2790eebdf1f9c2665f615c9f37b97674b24480379b3d6,0x2ef4ee00ba92f27e24ccb8322919c694429581b92bcc034b18a01bb0e1a92d8f),(0x1002769bbda642d6e66f8f3f385bc289974e479afdf5f90754c9715d86ba8eb3,0xcaaeda52f436cd445cc67eae2db1e002a4dfb0e56c843156486c8bad3346ad6),(0x2580f30ffbf0e564551423198fc6f53a8107ece47fffeb93f265034e8a008a19,0x17575ad026cfc553820dc1b976a97fd2a0c916640e29457e56d171137f74c64f),(0x5370f72cb29d4281e568be2fabc9297685cc847a452c891d3cf3c7e1541d5342,0x116173e2055332128103a345760ff85e1c06a42584118101dc8d3c0be0aa2c92),(-0x24afa6d64b8e1cddf3858a04df8b9ac8e5cd6e79222ce49a3ba0f49652d2757a,0x2839bfb6e9c4b9fe07c106a85d1ec072a4c12434af3bacdd8dd75b1ac1fbcc84),(-0x173991d008769d39129a17b5c76ad8b651fb9a5001bd1600f189e24dd3a37120,0xa78da863958720d361a07503b220a5aba7cef2a21715acd3dc7ed4e26ab9b4));
(true,(0x1ce344effcc9b3f34322d3b125ed1bc286dcb631c2c8b4c0056be68a6ad56b72,0x8694f87ea22dac5eaedb435e10f759019cfcda6521060c2c76486e416e07782),(0x2458f4c9bcceba4c2acb85b018f9be0ad40eb46e407e2ffb643d8612d7a706be,0x28ab708935554b41f79a84940925a2b106ba66c5805c25d33bf3654fea1d3a13),(0x1d8ff42078e0cacf1488b9f67d96b394a536dad5112586496a07d29b0d42864b,0x2b85177eb9b42e5253ecb83a4b0960d29d1c2cd42ffbcbf8f454c6f94522479d),(0x1eb8723f43a5900b56eb1d77ea27a23c9577694a7147bc7a2d6effe44f9b077f,0xfc277f1bb888e92983d4ad613754b575b804b8acd557e15da92a3c31b98206c),(0xfc85d0d6a4ba2a58d1caea536f7ae8380436e29ece191c19e9a68aa8e313c84,0xa0adca29c73ea7835f0d4c434aa084f71bcad78b80766d9a5a2d8239785142f),(-0x7460768ac68c8021f28b90de87782e435c127aa53b553d5c7fee6b04cca2f30,-0x144043ef461bbe64d97f997fb7a114a25596f9fa6ba9540438568e49063cf7f4));
(true,(0xbb398f1e1884e0e40af865d8337fa0e239f79b6002864095cd813a273ed436,0x27176801e6fbdd6d459f41f7ff7ee59dd1483f9d475fb94bce58b245228d075a),(0x29e10e10b45c22b00aabc80a7032264a2ee67dbe9ef2fd5bd1a0640186cb125f,0x2488c33d4f4d071ecbe4db6fc4939dbeae2be474bd3950571674115b8953a3f7),(0x1b861e6d11657f85c9957b26c0cca099250aa12ec19978a4f688521aadd228f2,0x1408d525738992db2c23690e8774caf62e8df5f6f0d5f65bb6204cb98938aed4),(-0x30c805d193f621043b46ab9cb7b80d39d0d360476e9ea59df833bc0666f1d067,-0x8634fec6d66aa2c2eb2dfa8dcb5996737de54c57c5ccde6e68fe6357ad85213c),(-0x1f914299e07eae4b1bf90aa6204622afcaf79f3e1d0e788983cec8e3b97c508d,0x12e7c05050e273111e81c1cf921885dd857260152c151fc8ae2b4916406c0cd),(-0x36c9cb174724fea90209d2d4a8f54efa61caa24a7c51c5c0f37847bf682301d,-0x467f09b8424b59c0369f7f0deab1d6168b1b011c249bc75b935dded6517fa45));
(true,(0x2666d7ecd0df5c5fa570c12c5e279394dad0bd06e2ee72d16e25dd0177cbb7f3,0x192895c439b6d5a5fccb9884a43f452d01dcfe98596f363d82a0bd08da9f6189),(0x7fd74a9954f371de45be9df9f7490d0b68393c0199b3859b1fc485365aa2bb9,0x6a181050673cad58c940911b14cb2a44396ccf3995b34faf16ac7c794a80560),(0x2df839285e691a0d23800a13f87ec021f788f33774350fcc365f7051faef8a35,0x23705f0e6fb86a6e6ca4e1dbf9c44add7569c98933dd87dc707d1415b4574eb5),(-0x32158d16984039b43d0603209d1ed13c7ba7f94773a33f3592c7da8894c2f54,-0x8149c168bb07b5a7f5dc4f5a61d55c4b92726c683f1e5807e8ee3618a861eeb6),(0x1164efdc90c53d31e97a5e396c7e8deed73827af90d34ee93413126bb80d8097,0x27edf59fb8a98afff0bfaa6e22a48da61af5947812880bb23cc7e37c065db2f8),(0xb58af105847204a6ba264307d088fb32dfe3d3efbc13c0630d55ca527610884,0x2959457136b96ccbe8b1179102090851cb36f6ec38881deb7915d6d7c3c62a4e));
(false,(0x21104f3ddf586bd535308844962c61aff3aa17eb46997a1a91bd384df72995ae,0x2ab3a0a73978a04b18bee8884214e5f066151b92838b34288246bf0e86067e3f),(0x13a1f3065774a1c0dd1a010c38ff008fa906b0105c81b19404c8b61af06a00d5,0x1eb7ca09317e7615fde0c4439a816137561af40ded7b8e1642fb7ac680701ca9),(0x84743bb22ca9778242be56428ecf4e9fff2c45c31d27697e56a62b8956c0292,0x25e0b3b02a257b05e63e5830db5a883af0afb74678dcba311ec7bcc8525e8f4c),(-0x5c27088745e35f185637026c1915582907a9866c1dcbd509b9001f9e62cae6d,0x1b0fc7e8280f6b530a296bd4d9f432388806d1b03d89652af5c9ad0dc8f1072e),(-0xf16fe49f44b487f368782611925efaecd89a95b8725ecf44d55fbd6b12ba188,0x3a5a114c57c4234d200537cda30894be77f0eb055a848d970c76ba89c872f2df),(0xd4cccf2e62b5a70a9efff0dcbd20bf2838b11dd4e036bd7defb52d9e62a4398,-0x1abb2570c520ff2febc5195d0e3245208f0911e4ed6a3034ffdb01b908ee68e5));
(true,(0x2e129243f765247a17278028f2abfb001f5e1144c1e5b1e5f0f897d2e067f4a0,0x1393a9192c7b3016d035b35a40a3d6c488626e45642634115b4d87078819eca4),(0x2947885cb79d483b14b460e03f6c33fe5e8e2a752802fe8ab7e4c9b0de6d3a90,0x9f26a19b56f9f9b2f50845f6a8773341d15ac66f4c8d92b20ae8917bda24146),(0x43a33d6dd740ffd38fa9fc36195b411a678edfcdb3c223770902061a5fe6a50,0x2e86d80b1353582fbd9f0bf89e8ac97c1d65dcb7c4a0638d931f7d849f682043),(0x13b7f28d49444a8f3f7d1b6b1ea5a6d43665edaa8337b47cb9df39b675d50298,0x40c8911bfcfdb4bf9105fd5723a7556e5d44d13cdb33ba25179e95463e04f8e),(0x23f1d62d2de81fb84bf315f0bace9ef7f07c14b449719c81e425beabf427ee9a,0x2546eecad0e9df06526eafceefcab7615f5792157466c54698784516e5330e58),(-0x1d031f85f9f31cf0291686d8b97f491ad348a5c13886c77800b95d66ababa862,0xb04b1a7e9b0fd157525bf199d088d3c889ab2e4e6f13ad296f80e6f830a8fd3));
(false,(0xee7b59d203403de965ef8e802c5d2659f24ed9f94e2cc3b00050199b1f8d337,0xe25b91d1ab1e47427d7f5b50d5733ec2e55c98d3f71baf781589136876b81f9),(0x2fa3fe1a1ecbe55455ea96212294842101aef1fe2ba98dcfe521c1bee0da1b6,0x116641230d3ef5755801223dc09f6e5a5a82b94f681ea75cfeda8b4e3e602ce1),(0x20c61037069ecc3b50fe771258c013c64f75d85184e06f20e47dfff9710d7bf6,0x2b8d0c96eeba543312d2e315591b5162663c3b7b0b91e835973c1f85e86e5603),(-0x9e27f7d3a56d29565b2dc830deee067877bb136836c6952eda2f3d9fbf02fad,-0x3e1cb10197e42049e961c1ef3a2cc64eb4aaeb16516fbe71ff5eafb9ddc589),(0x7476221b84eb0d243a29e496edeaecf95cfc5913f425cc233e44714553b0ab,0x8b70bde1d35c41fa9d84b4b11a3f6245fe21fe735ac71abae293ab4f19597c3),(0xdf9df5438cde38891ace83be3100720c9b27188803d8a87fc670d422c9e3f95,0x8e6f1adf875321520579277ea68d9f8719f0bba27d885d3991c644881e78b51));
(true,(0x1a830b3fe8c093e45a547fd9b7e36e30860b48557f1a52a95e5d73a7c1b1d726,0xb08a42d1c84920a6401b159d94ce9e9bb5a5a637fda9af4fa6d24ae9ad0265),(0xc05a2afd415d054b15e920456b72e329307f6408d92efae38a89e8fc6f92605,0xfcca741b97bd275c5307bf3efd4c9930ce0366cbb7427ed56e5bfa5dfae2ccc),(0x6390902ac6e03dc7726229ab4866edb79d2aa3dbb117ba0d0ffe8c67fb98603,0x73bfa8256244d0698f8ed8349eb6753683f7b4ae4e6fe1e4c84d0904f1b80f3),(0x34e34d58cbf4117cfa413e766a9d43b318c4a350efdb12dd438af11ddf1c16b7,0x2a3aec1a38ad808e0b370b2558105e570be4d5230c6c1a696d6f707753d73ee4),(0xe83d39eae5fb3345606dd8b1698f37b315954bcd628a527705079b9f304add6,0xc17028023acce45ba6e4f260bb5f2cb4e6a654e8ea4b193bfacdc10c6b3e22),(-0x4fa5783051375dd16e8771c484d6a08675c5b7c7c6ddcda50e81ed8cb7f5524,0xbf68794129e7020dff4065b0895cc8cb144d42b338935df1c020b726283c9b));
(true,(0x18fb500746210d14ba1e82081bbb1436a8ef54eaabdd2e7bfe0989af48c156f7,0x242f7ff1bb57f2c9ec0bd9baea12aec9a092a2298898aa207a4a54a562019171),(0x2568196980cabc3f6c9f5cce319f1ad397e429f90d5990c413ac8f2abd78e361,0x19da4cffe8177a7ff293c60694fbf17f182a6ef3b078818eb2702c97cbfaff1e),(0x15a1dcf70685a878e4b50bf18ac304b644b2a084850c564c7b098179127aaec8,0x128aa1335327f51acddf2c4c8b030e527a11269c29bf6e71c006faf0772bdc76),(0x21ef7c2e63f1e0228b2047cb7f9d415bfa5b011ab96bf91303ec4dd6052568f,-0x6c65a286498c867c1f0f65665bde37217626077fca18e67ccd52a72591096e8),(-0xe296310dc4db318ea09afbaa459610c664b2b2cfbc846e00ab0150bb65ae8ad,0x255c569be173e385b343aee1d0c1f027df7d4df4ef7d3222c1fdcfdd6d4c35e8),(-0x59647395628108c8610e8a535c9ec38e284a5ae003c04295a7803d2ae340f3b,-0x182bea744362cc9eb6b2b5c0d0e5fdce8fbff9b758e650f2f0acb074d8689c45));
(true,(0x2afe4d7e04ac5f8f9767003075f836b5047c15947fc7e5238dd2128dfef32e36,0x12d60bd7f0fc8bd129021a436e0cf8cda36f242c1fbbe9701bae5518c81c6935),(0x2cb357656a93e979125423115a8af5eb393d85e900452ed97966fd775509f35e,0x1bf9bc0f3b499d505de1c376c2320886c55be3536e205656db8bf90864251e86),(0x211e931481ced412b69d69e2b60f4e4735ce4efe7bce6c4a0f6f5bac2a2c138a,0x265e1d340f3180b776c8bbd888dcf9a41a95848e0f7f830d8996fe2a5b28687d),(-0x154e9db79374acb2d4e99b3c96514598ae39cbd291a8388e0813a71327f479b5,-0x461e20a5e45e383a87655aee9516877487d475a3cdbd4dca6d92a181dde80f84),(0x1edd878ea41dc2ad55da832a92e3fd81ee9686a1166fad3b1ec263e17d8602dd,0x217839b28993bf079382964fb9d0d833bc95a16f1f4e9c83b9e2c6edc1ebc696),(-0x5a7692c9c307b6998aa195d1ee6e807cccce565ef944f81e74a0055672c0b98,-0x4b99e587a1501caaf81aa82c5ffa2f3fc332e2aba44b40bb051ad5a7c121e9c));
(false,(0x178946a812fc9157a51dd63d5df92c9d063cd636c48372322cdf791e88bafca3,0xb1ac182f7f34fdb91c944c729cb801215d203c3ba4b7a352ebcc25c829128ac),(0x22067af8cc8d71b0e2e69c107074a100a9f15e36f707d61cc9a2a783404b5bba,0x173ff51123cc52a46a30dfc9946b52fd88b3f7e352b4abde67f09b127ce187d1),(0x1d4d58f532794fe5853f9f2d50defaeb6356cf66b0f59125f5e1bde8cdb56ca,0x26a657f667d1af31deee71f9a47f0c5a91dfb7f034d4e19fffd99263261c3db1),(-0x982ed85d7b13d2e0a577f0f4c999b8afc065aae589defebed0148b42a9dd805,-0x5ecfbca2480c3d6c4df2a2a2fa36d9d91c31da468ef68a670ea66049e31cdba),(0x8e62bf7d5c78c4c3338858a199739b24c33c3cd45ca6f35c80be18fa2d9422c,0xacd40474fe1cf91577ab72617c8ec371e95ae56c4d843d18a9d20c0d6c55a19),(0x41b9147755e8f6c7a8dd7f25243471990c9836b70d4e405c3d8754724f1f8a4,0x4bf8253906d9286f08d3800ce7440d77ac5b0d8cc74afccc148ad03baa75537));
(true,(0x1751048451b118200bff6e223154e9c30bdf59a768308af6cfbe25a3648712cc,0x118ebd98c113dca4451339d7f750bd32e41dc2024d5b80ec60224aba5b1e39aa),(0xfe5064d04269408bd4a9298dfe0db587d4c8823fb6feea5c263066ca2640a6b,0xbb454928e5654b4e9cfb9380389572d83879d1978f1732b4198bf432a944b34),(0x29e8ced3c93c4929e59734b5b6ef53a79cb4415ca31d2df98d6c6a6ea2b72a3c,0x2d76d455d515b686f154d1d77938f8655af146f40787a1fb5c1814849f85f175),(-0x408aaf2207ff45d224e1452ea314fb80b14989d9318e6c42a24f81aa5b70866b,-0x3b82c1e43e2b2da8b4c6064e0a13ff149c36b14da781895382976169f21f5164),(0x4dd3ec1e6f2e35a879a65e11e33ef636448a84ab478cc6789786f9922c7084b,0x10eb5f67ccad14143e3cbde8696c32d3c21412c39f5a4df4c047f1047423d016),(0x48c036eec02beb7912e34918cc99cca62386b44db0eabfea916611a86ad6df4,0xc241e6de52f32a9419f34537083a21911ab52c8427b42509140397f0661dd34));
(false,(0x1eb0af4bedba3049d8462278eccc389961074083e539c41aeb65120addec3c65,0x13ea4c5b16b881dda7694a1645c9fa5d8bf549482acae67d29ef9f13620db346),(0x28d525291705af9e4cf19946675b0b9df911c11d4c20f6a0a8ab348110d2575c,0x7888a3ce94a81f79d1c77dfb3fbdb094204dbe99400ffd39330371b6793b026),(0x20727237caf6ef515b6aee042f86baa6242a40ac9a5b40526eda9c18ab11a8e4,0x64c8100890a8513d199d5de9deb2d4f4e40038365b79c3095f990a574cea8ef),(-0x8eebd0924c674f2eaa041c4f8b38971c5e42e7686fd125b24aea0f0ef4fd48,0xc1f54d998b6795a21c42f58848c0a24dac1c8f85d2d607b3ed5aa2da3d9c1f4),(0xb44901f3a4c9a65a2a722e4c0977bd066f61e7f8ce75ce4ed4fec972510ec77,0x1942b2da729af7a02ee06ef58947a5b45200b418d46b468f743bd1977d1c1fe0),(-0x1188427a9238e95b7b6aa0910f32c6e3ef81c88eff9d443a5c886cd21757d62f,-0x79e225207a3fa4f2c412c2eb864c8c3fea5ad52106f2d8bb8a02cc48e8c891c));
(true,(0x378c11006e0efe99a9d3b70403e3e1b142d33572c0ffe45fef057d9188863e5,0x241917aa176d438129ce78335b4547c2c5316906b79c0fd44a61e1a7ffddf34f),(0xa8fe6f69d7904b06d1f0267897981fcade539152f8fbae0e61edc0baa0474f,0xa2028f9dff8fffbb169aea439e8af7cc6250e27d510ebd2926b442a340757e6),(0x14fed1d4be11f642b291151a0a588da9152648f046f73746729138f7bb1f4f2d,0x2414f50eaeaa36fe568919d9e6fb56d27017e2156c1ed4f6352d54304242ceca),(-0x689604d2c63d072d99193a568938107df80dffc1e752941bb7fee58bdbba5032,0xb2c16d8296d5732b96ab5558c82254e5ba555a570d831e95ac12701a985b7b2),(-0x1aada8a41a46b45eb1d64205417186048e7ec0231251ba1696594570c490e179,0x52deff7d46f1497043d0f3ce5a72ae97057fe44a71f90112a359f1e6c296bbc),(0x4d0d414e23d931b09ac161b77508d8466953579b07260974a1c5f8d80aa42b0,0x1dc7e204d1b2dc61d08b1ed496bd36530956e76c5f0c852287bc4938aea9b426));
(false,(0x1e4dc8bfd2fbd5647c788a66c86b6ca92e878cf98cadbfacd2641c32e795d681,0x4d20c1adcfd6ea35e5f95412506157c775cd2de70b538f269cb821ebe3d24ac),(0x80a503e03acef4d7c2f0f696df9d442214ace780ff59e3252964fcda271660f,0x22f30694a190e7c0726c7148161b493aa05e51fe271309da7fa409531e933478),(0x104cf581a7fa5ba64ef9e61e77dce4e228c4c15e26d0f27686744eea96c99a9c,0x2c28ffea8c5bbe2ced4bf0a124cc8a466118ec675cc6878e348e50e603b0efb5),(0xd14afeb2e8edb0b5ae3063488481b1ffd5064b4be3ae89e18e56f526c3859a7,0xbfd1a74391dd84a3a715e2126f59fcd9df6b9afbb806b2fdbde9e8aeb1cdb75),(0x127f235ed55f7336698309b382de9323ffdf58854bf966cce0a4bb23ee479caa,0x60990e4277cf0deaed2b2565a4aae59f85d956f94f22a631d5af1625ad52408),(-0x22617f955664abba8c90018e9bb33d820b4bfcbe6cf270fec48e87c2e9c7287,-0x1047bc506afebf03e6b006dce31c522a35f71a04358d008ec224556dfcd182e7));
(true,(0xd85191f3dca0507e9c11d95872995770fc0378800c034d0ff192db1a19665b8,0x208f7c57390fbcf296df98245e3357b205961d2a232c88c677ec2b43ad7ad7bf),(0x279e9b73e73785c57686969c842eafa8b8d862c73841baa3e12e4925304a2758,0x2f52ec91ebc5e66352a4d94984ee996bb8ba9b3ac2d066572172f4c35c85cf2e),(0x206a1a5764171c5ea70a900b630db93adee6244f4d5b02f741a0ec72087372f7,0x8aab56ac9a0f55da766206e31167d61f8864a5c251fee5bd01145bf1f0edc6e),(0x1565a1483c2dadfe0589ffda3bdc4e7f322eb76b4eefc75cf6a9216f14b05901,0xbc52a263f6773c91630b4536c73ecbd36b21a528f4534a3a7c9bb1d29d2ecf8),(-0x12219079f7277935cdc9a0c84feb659ebb5a37abd440fad2712d658d4d1cc211,0x12319b800904cddb44fad14f6979b267b5ecf971b40693888f7d2c5e14280cfe),(-0x7f19c716f4f4c5511af94a2eddfe3c8e218cdecf31325087183ef7c084c337,-0x18b496495155145c8febdd4bb2a9c07d6f3d55a88bd6a987257e4d94c5a17046));
(false,(0x1ce733d2b09f40bc1cf693cb0b7d2a7005f82c11454f870ae221cc45352493d0,0xf227cfe0c91a7b9cfa5d9fd5c7ae7cca2330d69571bca7bb265b0e868ae0718),(0xd32b729bc3da0ac731352106da23e9d9be605e1593c5501a754f53dbb485ca,0x28e63c122ca6b71f9934edbbeca6d17dab5153be901f760fd112c2b789507b51),(0xf084310ce5ca0cc47b4221d4a900823217aeb8821298e3d35f53eb156ee0827,0x2cdc8d4e848dca81103af60687eb0dbb5fb919dc4bbd23a33b46c671582adeef),(-0x284f7e55c53c0a204da532fe96521dc994b2c4bda12323e7dcdb5c9bb643ce5,-0x11e28529acc3cd513f988d067b5d1391b059b36d3f4bae0ed16987fba2e36b23),(0xc879595bf7b11cd9bb0f6743643b576a27c9386795dcd7b3f0ee191db3d0c47,0x1214415fe112d7ad1a802009b76d944ecb862ecacb2099c3c2de82cac12ebbc9),(0x152965e44c3e70bb6e37a4a66256ab75ba744d8b14e0563f1352255b28029e26,0xff86c1b171b5d158c661aea0a5ae0324a42c847c80c1085f8011013721f0ae5));
(true,(0x183473689c05d2030fbbb571a280bff92c68dd3d55874ffc369f84ac1497747,0x17172003b4bbb22fd124b8329a6bfbbc98ac37caf9599526204689b4c6af3a34),(0xb92d13f79f22f48829bc8060456128e598c19a41677b39bfd35b3c1405e2be0,0x1b41a0e399ca3d35fd00a1e94fe67902a15cdafd11740fb51c18c9f9c972b9e7),(0x21c4058049ced76a3c531d2a9326d463742ed89a1891adfa0ad10c24b6754d91,0x2647abe2c8986b0f59ca1b774d187a5ae16b657621e7bbdb0127b51918b662cf),(0x3dc96ce6b42ec6b023157b7106e5c1b9c24d8fb8ea086d0834c04431946e9337,0xcf7a0c6818a7de1a8ffe2986f9b0a461a35f9201e1eff8a52fc656f1294d2a2),(-0xaf8685e3da8a32108924492b7e161e79a06cde3fd364882e0cff8ac1b841e95,0x17195152aced5f3950a30e55c7220ad184de07f47c83e8f9db8b579f444d8b9),(-0x6d887cf676a963a3f3cd5f927203cfc2193fad037b7d19e9ca9660b4df62cd6,-0x4b3c62fcb959266de02d6d22a6420f07dbf5b57cca3ee6f8a62de57682319b0));
(false,(0x1578e51241ce7a8a7bea4afc3c461f5025a08e343f2aa6a4d87711688434011e,0x1a36000c44747a37ba0f5dde97268dbed943ef7c16ca6c312d193d0e297df9f1),(0x2e981ba24bb705adbbe8617fbaaf2bf32a6f582d4ebde85d599ed4cc6aa388f5,0x924c731ca3cea67b00c0314e5a0e2c4a287fd1597572a1942acf95a2c60f41d),(0x2e2742419fdfb7fb57c5bb49aad1c1907cb4130fac67b19cf2e0d7b50e67143d,0x1e354a08dc0b542300054219d625c3fee6dcc1b015080510710a8ec4b8836161),(0x66f922118fdbf0bb834c44e42061cbfb04ff65d5533b9db0db273611083dfae,0x5fa7cb80121db616b36d0c71e4b362b066974002a0d8df801ea86d0f9c2e24d),(-0x4ab57485a48ac3c1c5016d7860fca35de96e19c8fb7ca05cf47b94f19014969,0x1742aca12b9f015c4b8f18d3c4b81abc5f2981c96fc9bf9af763ae390e225f9a),(-0x19598ca26eaa810c73494705267dff521eacf2a3087b735e6789975d91d1cf22,-0xaee830a313d0772a36a9774ea622543608fc649d73cb03b5a421f36c695f3ef));
(true,(0x21f66a52f24277e64b6fbf9767e466c301ce9b86467160e8bc446db6aa124e56,0x109a0377fa34653a6c3a2e7923cf541a0081890c3d891b5cb252f6c8f859e5a0),(0x2ca43d9a9131a25e1cca1aaf3810c655c2fea187e189542d859b7b2e3c6c80d9,0xc8fb4d8c251dfd832dfef14aee0a5165deb0985a1b4d3c52001f4f4ba46e3b7),(0x26962b99a757d9a4079b935ee65a551e79fbddde3b59b9897e9f9de192324169,0x217b6eedc67b62b0ffa5a04ae96692f2d9f27d4de7ba4680e0e66b43aee173c0),(-0x5559bb913534c96ae093aaa4e156c51a155f0289da224377ca179fbf90406f8c,0x153eb8cb9edda8becb8e99d98d433d2b192cd73cea486173390695ac5ba78aea),(0x1223ea40bea1bb8d36a3b8f9010334498a1fb8f544dc5b9c3c249fb3928c6d57,0x174d86b119a0c5e3148545501616b99162929e58ba00be0a6f59b68d583d1379),(0x28afa4a739a5b6592c9f8f10265ac88b49d7822a020131bd9b3734c9d065aee,-0x1ba8eeab6fa9f52979322934bd389c7c2d2eff4eb0f873ddcd656d56a932e3b));
(true,(0x2527a577dd1e5d4e57f49abadeab9b4cdf08e00fb86ee070b4ba7683bf9905ff,0x3e8944d717503fb4cba86b1daa60744ed38311020ad9596b7a659a80ca7a6fb),(0x7e7aa242b032e44b9289cdcdd8980356a1025a9450a3fbff75b62ed5181726d,0x1c19cbb1bac52396007cf97bb9d9de483d718afc5b8d23a81a084f8905de8a),(0x206f80cc1e6dc438bc61535f885ea3ab11c7665c2271acdd0e741ac78589dd3a,0x101d9bf109e11420bc197f5c8a677cdae36d58aaea5fcb064afdbe0b1bcfa84e),(-0x3beb6715d87c16242ad8c39f1631063429a355daec2352278e375da360a4a8be,-0xbe122f2595306a87b5812ba798b10e196e2d66796aa5a3c27f3e04eb5f1db0c),(0x1c36276fd461128ffcd4e690e4b5fce592d6bdc63a67ace14bbab9067c3f2c6f,0x60079642f9f0e4674ab8c7f948dc038ba32fa9f9584648e04413d0e0207b05e),(0x1b334deec7e8deba28b5eb41c65e0f5c7446f108672d7d3f0aa4f651889cf89e,0xc8702223ccf71262e629198fa59441f11bf757cd487070995262a446164728f));
(false,(0x130c59b526c50ffb8861e66200d4e780bdc27eed146e001b69f55b5eb4e0cb38,0x125559f09aed83d872fea9546f6df333610d7f78be5f97e7d684539a79c9660b),(0x289d6ddf97c0e17705104cfe35dc56965f8497064ca1a4189d446c371cf26416,0x301de9a347238f22b36fa7c68fc0c7088d09f479a9e3d7725a132a270d505983),(0x203014036c49d6b02799ca803133e69b853148133c791c79e0d014d40ca3b5a0,0xf7220476cb25349c916152243104ba35c242958ee06fb49b27f69b15c1b5525),(-0x34dd1ec6057202fe280d1b6fdd15953f6dfe35462b777fad4a03a36085dc268,0x101d98518a04e9ffd8f6b8fb98412e2fb11ac665e3d39eaa383cb544ed922135),(0x8d5ce6078b58c9a62649fddbe9b91cbb65342fba9b84b9c0879d095f769271,0xe6ed7e49125fc4557574c33ce0329317e62427f209940949bd2def833007077),(0x54fe938dbb6aece8334c9804acd2e82e9ba568107136e70b7c92bd114cba197,-0x1f4a025a53723ccc6e2b32b9df20061b879b3ac1d1f721a30d90d308b9271662));
(true,(0x80652610e54486abd5341f873dbbe954cdadf529b12e3c831b0211c77073c41,0xb3f0c08b3177baa2adfbbfb1079b3523a779b1e1b24c01b70dc478e62c14126),(0x180a4006fa7a214027ba8c8b7ae85bf2261be9c10571abf35fd8d87c2938b28f,0x8438fbbb709d15e2659e277c5410b56aa8aa029e588e9585a562903612f0de),(0x261b323d0db21eb29704c76f04561e40ce8eec0227cb5737a8d47c113f0bdbdf,0x2980f60400a237d3d9651c4b3714055d43705be5940a3d38aa0ca98d55af4c86),(0x2cc33e85e052a2b9e06ebe17131bec342e04105bdae30613b5619502a62c5035,-0xde38b049edd7a06744e9554604c7d06fd8312e5e1c6fbaf76b252bc644a2efae),(-0x1486db6172cf020a8be046e0c5bf0e38094eee8dadaf5bd4ffbea5cea9fd432,0x3bad9acc04bde12b08ea3e8baae542f2f8e42af78715163c08ccaca2c2cc758),(-0x85052b918d52cc0c3b60e5c5ef8ef8271e3b72c8aa09adb6cf4475c5b813d9a,0xbbed6bcd3a28538ef9d3c7ea988d66b4a8570ca2f5e226cce80780eb7ccea9c));
(true,(0x22e80225553bc4411d684e06747612d614f0d3cbbd22ba9addf5dc7bb67b27a6,0x173f66fac2fbe092ba0444f474b22ec67e45adc5d764d342e5142090180344d3),(0x18bc90cd054b03ca24a5d2fa218111eb70e48b8694fd83cda12a75cf70fa2426,0x489cf066b9f8397885788f40e652b254585367b2d40115e0092f3317a72f26c),(0x2a4a1c0bf005671d51b9587495be3f623bdfcea806881ca4e22af252b306f6ac,0x2d99fae8302a30fb03cb09d7a9f526417130184008320e88d09a25ad451f6204),(-0x14b6e2025ba8645aba993d88afea0df8d8af7f7b2d8869121c115a589c656981,0x5ef2e5a786b13f2813aff91f9fa59b6f2a2e4a4fb8ebe5b9cf98839d7cd02cfa),(0xe02b1826a13788f2816bf64efb79b9ad6b881dbfa5aae124b3661b6f6888b51,0x2189cd9e4204190e941604e71586e7dc7ee63f3a50868d2987c1dec6b672daa4),(0x16dfe97b613ed6e43ae5b0d75f9a1d844bddf622f488eea2495e3a44a666d43,-0x33c54b7fdafc252417f1a1089d285a8f9ccaf3c129419d4e9cf3bd17d6d1ed5));
(true,(0x11144e8cc5a49769a0fc02355c37618d4b538e5ce96c32d1e449de54d044bbb2,0xbdc6980a5b6cf5121a7cb106dbb9820a8cd735c14599695ab82af16abe98b7b),(0x2b8cd8251bfcdf47fb4a745e2a4caa3d966de58ed2ffff4cfc89c6c753633975,0x2af03f2b254921dc6366e98ceeb5e0a847c7ed38fd07911598c11ea69e452e8c),(0x1cbe6e4ad01183850d4171b164598ed4ae03bb6f3030436786c54e16ee4784,0x23d477b083ee478faf564c5df530b809a9450d82ba8739b5b813163bc34849d3),(-0x1d28fec34b6cd0d8e69c26a421c75b22c72521a4a8c727dbcf3174ef9b7c19fc,0x27001a5ff1afdc214e4aabe3fa6f99c00f371b7496d8a4f6a55f87b2a4535018),(0x31eeb93887da42db9a972e9cf0a1183ce1fabb100c06b31ecc5fb610d6a0cc6,0x85f54efb7c20f8f48776afcb6b177bb9282e140659a3423012fd2685d67f118),(0x2c59f32183968ef0f0816d7db5a321d78607125c69fb52135ca0c77939c5fae,-0x122a05a7286e9371202751c7f38ede52fbdcbc94bbc1b5232c98c4af87127994));
(true,(0x1cd727bcd2250f02adf91397000b6ab70ba882a3430df272c604fa5b1d5bd3ba,0xbe923aaa45d8781a6b4cd3310dd86ef968ecd63b29663a527a4075261f5bee9),(0x48fc4878e03172dfdfc32e440ec86fa0634946760ff1fd15ba18edcd24270c0,0x2cd6fab7c7fb14a935b096d632775dc5b2195d4c15404894493937e791bd0634),(0xe2db86ca1ffed5a3724921e1aaa1044054a61f8b9caf6d3765f2c4df6af95d3,0x293b6d418ec312b3e419dee6a55e17cd28e0ce4315130af4f92c021081aaa1dc),(-0x14c8a03e8a5f4e980347e3e515a71090b0889c8ffcdde95c7f387aa3a1f59977,-0xbd17729678fb051f5c1bebd32506f04fa3b2c483a2c44fb9600fbba88f01d4dc),(0xe41b5daba4a2ecae71e496166501856283e3fe9367549b138113c1010a1a5cf,0xe327041594ff565283b97d2fc15fe3b1bf686b3aa7eddf48c9a5f2886617c78),(0x17b44caaf2a0cca091dda6368c68dbd7a1959c93660babb66c5852ccf9ce17d5,0x87690a1d6b8c523abbfde5eb219515b8e98af996df05c2dfbca3f466d57e012));
(true,(0x2d4a9456cefc4d3b2905b5a30edc337c7e67778a56e23fefce3ba8f6a2017f01,0x9a78920b9d9e7e1cc5f3a43b964b3334d8eaa7b150250a4804a002beb0f9793),(0xff5d4288e5cb8fc74e48e2b3e8b0857aebdf29a2137d1f33e08e988b13b3e70,0x1b778ffe23389b7103e553fce8a58ba45ca2f6ad632f02ba8053f73f0dcf7ac4),(0x2d41158434b47c04009bb3f1d3e58f27fc812a75bd2f7c92815e594672a47c9e,0x80d8ee0d80d8780b95e946724cb68c727723ae3c769056c95b40bf60fd49314),(0x85718db4d57ce2f5854803e2a21207400db533305adb65cd8607dd9d50a7aee2,0x397a424684e36144d2db495de5035c195c243c7a880bd685be483aa4b2ed20a6),(0x28769f3dedac2f24d78008d638603c2d78e2ad247f33c824e50574c70c9e1718,0x12125d8ee325eacef303155269c2c02e291ea7ef110bc8f8a76bde1314c3c336),(-0xe22621a8e4a879b1f44795f020bb8a7b0efe2cc2ad21c9ac01ad29e358ab787,0xdfc4c732af30ae0360fb7d9cb20b49a0e563f239f584e6337cd6b3945afaa10));
(false,(0xd9715e8e4d58def1059d185f068ea378c09f35bfa3905f1e88bcb81dbbb140e,0x16a242c3406ac22339de75428ffbed9d786bec88ff6819741d801bc22e7e2acd),(0x1ab5d40ae828889cfe86c0692bdcfbd42b2b295f8fab735cc62fb3a6a240fa65,0x19a453171258d20c0b6b9f5b032ff0be88f41a3a1e0b876d8e72fb494392c3d8),(0x8266bbd5bc3af6a1be254326dde07f67e9991e9eed4725f1cf7c98be349fa3c,0xaa4e7e4752d3fe569f949aaf620f62f8bed9db92976dddd4f6c3dac959f0424),(0x326f65850a876fd25e14c311adf9c9db9a9620a2d10d3d0f5b9ece430b26f7c,0x339bb0352eb511097645430fd73b3b1de901f40b9ac6416949fe5bc266f539a),(-0x6c50a0df2d20f0bf6e56202263b9750deeb67791e752e24bfe295b7b9da3721,0xcb67a1cbd6e57157b27b756131bdd884e982200baade92a64cbc9cc3b148182),(-0x3df65d89f4d61912a90c6980bc45cfca5817f66c8d5f4ce0ba9e06001386ee4,-0x483f2c74b4a04e93c42b83e6c290192e3399cfa4d154edafbfed300affba4f7));
(true,(0xaed1346f789fd530f9f552a65ff43cb5432e74d635a560ae543306f0ef43b7a,0x1970394783ba7c3409f6b08c9d603e6ffad3b13f48b8a7d98122f7b09a96fef8),(0x1dfaefa36994e873e9645400e2ff863f434ebec21b711f32f725ddcd7aab779b,0x1886b63fabd3d2712fc278bad98979fd5d8eec6cf63c0c26593b9af6f373da14),(0x8087ca5ad7c240a3c25fa37ee0161dd2411b66084b3210f2647593783dcaa87,0x7b2c3c200735af81653fd6be87efd47e7287da5e4570976b195db401f64cac4),(-0xafa550ab015d0e16c160d50546edb4ac9918f656535e16d6380214759d1f94d,-0x478b5d00f33b845f5ce17a92fb55b59b14327f5f019288a799454bd8a6e73f40),(-0xae7c7b748eedd568000efb57d619b7570b498b7b6edb116ba37157ae02da1f7,0xb7cb4991c47b050afad82cc63c81aa22056cfb0617a035c459207aae734d684),(-0x1532503cc8ea15223109d66f8e4efb296d3f3e201a1595fac47b2e0151ee029,-0x1778f6046e638fbb021fa832f66e01391f14cfcc3bfc60a9dc0fba04526adb0));
(true,(0x182f41c8b5b0125d2d8730f2a7ee1402d2b097b9affabb7aaec716b44f26a17,0x6744ba7368e5d7deda6d1cb4fc0e1118a3e7163c2a3db21903b4230def5753a),(0x207743e7fdfec4fd6fe5ccb11b4afff35d7157c4497c2866c9bf00e6ab464b6b,0x406940bcb290f8e5aee47fcc0b4f74bad26270ccfc1026eee5eda4039530197),(0x18f22c47420af9491833ea20d9ee7fbf0ae9ef5e7240c3e3f55e88badafcc9b8,0x4279fa56da500018f33019faaf927cbfb5729bc546069602c16e85d012a077c),(-0x13fb2bba951740842fa203f22caac5b8eafc695e393284e7ef2233da1ec389cf,-0x588b7195b2b67bf618e6a50c7d59295a845e3329fc9bf244ba7936669cc5259c),(-0xd049f916df39d1f773f69c6bec6701866644d6c0d8e3b2ad34ea65b30e5eac,0x67385df939aa4782a7154a40671ac29a74edb80b351a80694ff087a1984a6b),(-0x2cfd915d3dbb29c56690ea092f45236547bae83a99d16cbe419258d6e592937,0x4f0e8bed9a4cd21d6d4d6c03fae9f34248c11482c852c9a015a2564fbc5ccd));
(true,(0x2dac045f0c7b62e0500fbd4fa5e0ff9035420dfe4d9c4c120007831833cbd34d,0xa6247c2d89e34b0f7ed5488800b0e9853ef77344301951ab2489d2ff3d686c1),(0x654644fef100e41fb2aa5738824f1007cb08f66937cbb8e29c5f8725f37b994,0x1a908727e265f67ef8af15827a39d5a77195cc76795676362ead26c38c04d742),(0xae0315867bb9021b2b7c5f3c64497b63fc5a7028dc8516c9b66b648e29c534e,0xc7ff1f370d7602f4e43c0af5a8cc0935f5aa86915342402cd528febe7d787c3),(-0x1308c6c8a414b549658d3a392be0b928455f7313a9d2d293ae880484d3366ec0,0x257e8218f031a10bd076ab2343af92bf3d710f3a281db01425f65a58f1314d6),(0x28e0731c89cce0970b46d01b431e73ff93f19c863ef275777fa82812c7a395d2,0x1399bdca5343872819b7af2da55c9e5b5074726820c5b07e68c314c53af63406),(0x1d80ecceb4fadac871361d394d1634a556e6ce0e9f6dd1e3aaa950a010188df0,-0xfa9ebd42821e3afdad78e198d1228bbc03303327ecca261c424ed9438414b31));
(false,(0x21b2063197df8f197cfd082d71bb2fb5e8584d7fb25f93eae2b314efc0802a01,0x288d39d8969e3cfc6f8e64516849da0263b35e6ed50a79adc2442fcbf7328e37),(0x2758c6da87f54c3302613e0f55147496f0dbf32e36292bbfc45cef0d0d8b5ad4,0x126b2e4ad568dd04c38fe5712f2e5bf875d9e4808b58c79a8194294c159e9a00),(0x214ef82b4b5fd1c236ad8e0915ad2b07e82319db504cd85643e036dbb73b289d,0x22074cbfdfef0f74393be716c25aafd5a6183b6368e5bcd8464a14e7a3005237),(0xd269245b3d58629254313d380f639d159f86eac1d117946f89158ccd3f6621b,0xe1bd642d00a084b5198553b9b6aca7ae2f30ec60e119da7b9ca88408e97cf41),(-0xa84fce57c2c9ce223a2dc842c74859fb164e39906b4142e4ea396415bd61e33,0x3878f91b39c4dc54d78d7a76ae664d1f62e69290acd95887a2960312dd5f0546),(-0x1dd0eb3388afdb1f805d507de534a2239a50d445a9cdef9f04ec4e1c5a8ff35f,-0x15fef1bb5b66ad08c4a046c042327ba76c69aa6cc68c95c2e9ca5f7aaba682c8));
(true,(0x246fd6aa948c5573fc4b71304fba8ec460b7652b41c3cd9293a7f39ea1cd2511,0x20606b6919afd49ccf93ea85efa698b3e9480eee651ad92f689bd1f6b1d5a7ae),(0x2caa1366c08468ffe041fa0c16decce18ee9b9fefba307fa70218d654232b939,0x2ccbb14318835bfc5202f7b6b7c0adf9cab90f39fcd1531f29a412b3a3fb23ef),(0xd1f1e19f12fe968116500a7db4f1904adfca96268e5298e57e0b8a0890b0f76,0x2228f031db6c624a08ff0649a2d89efc933b7853183b3c4345919a5d9682cff7),(-0x4651e8084fdac122824c995ab60b34e2c94b5b90c74d884efe62f107565e4396,0x5f54733027851eda5ff59acf45bf2a824251278b6b1c6679b14dcadb10aa276),(0x5c60f9edc4b03a2d0db688b4902ceb67621eee8b832bb8e3df6ff947ef47c24,0x30c19d98a462f6d4ab4dd1ce898e3580fef4cfb10a30031e25d8ac54918affeb),(0xda4c89132511729a9722ad641cd6a56e1e6eab34a26ea93a23a96421e383c06,-0x176b1e224de193df6977126bfb0c9792189b0f59701a43b6905cb53d15ebfe35));
(true,(0xf2d6c4fb5af8cb5d7d9ad8c6c183386c945fffab822350bc43da137e78c6d8c,0xb5c2aaac1f438f3c959f0236e1c3d565d72cc31f9dea5877396932009a95610),(0xf182d15ca75c55b031ab6a6339d69ca47537bbc9e15ceba4380d411c7822f38,0x226d0e5facbb3aa599b0781ff533055207814f4c5d9c139249e4dad589a17175),(0x11deed273fedc5ea6be0eda523d162ff3352f363adc1203dfcc805e3faf8e84a,0x19c49b7a29bd30877d3a15380c4035b3d7b5989f16608c907ccdb62f9e602c43),(-0x7143ec18e3a99f2ba1d4fb60a28cf1cf66601aa1ade8297c00507bd3b2e9d80,-0xdc7bab448d740bd4d0f102e4d98711c24dd01affb624c9ac8d866a2822985d8e),(0x217ea3d599d52bb6ffc5c8ff583f46a6156a8d99e7461b686a2a80e0b13e9ea,0x72036a7ef7cac34820a41fb798fd5c211967df2b2b13a0c403aac849d9c38eb),(0x6d7046a47860359f331a42b80ed2f689371c47272a473d2f8b024c6ef49ca74,0xa31a1ab9526b5dd8509ac7134e415e9f10b07bdc68e4c29a2ba785899fd1402));
(true,(0x19c37e867b53ab8cf52684c5311330269e2474c2b8699e073f540efc5bd719db,0x16dcd349026a20f1fba06b017411c74695dec2fd3ff1271c645c370af2163a6f),(0x2ea112b518ad8bf14bb92fbc5403a97dd492e43099c00a716d50f8a9ae7a5105,0x19d41ade48845a7d6599de5abc63befd974fe5aa0dde82c03598e2fb6ef621d0),(0x305098fb4dc791d8a3b0ac605f7418a55dc57d8753b4e03c7845d751bc8a2b,0x1c0cdfe4b6d4803b450ebb2d10125a2fc08df636d2f062a961c0603f093f4250),(0x3607266876d975e0c74ae8b655c9a01b27deccde7a65c8b8017a5d4ed97b42eb,-0x141b06dad8aa714dbd66ff891660a0358ecda51b7accbac1fa1864f05623802e),(0x2ea4442dcdd949780d326acdb1781738645941ff06f7c6f8adc04920c20b1a5,0x18580cee90b2d62b01ba827d1f59bea260a4e21f759ecd68d125df572d731b50),(-0x14d9d179628b727e69b1ccdf648482929100942776c1414d9d61ac37af896429,-0xa523dc5efdffb54681169f4a5c7bfd842292a03ade8429bc55bb37e996837b9));
(true,(0x82845a7dc38947b8f0c5b5ffb201e16a51da8a8eae06edebd0abfc4a02490f5,0x2621bbc419c63a2d73a289713676c9dd497332d17c17b3ed721f97f677e7800c),(0x5a03878a41625d358937a80922dffda8b16eb065eb0dceba43f7fc7db9255a7,0x20128df6692d62044de7dca89984478094fdaa64bb67ec672aac091fc59c3363),(0x17ac052f314f317e1b05239e199983fe084b2bf57eb8c0da5279fcf03dfcad5e,0x1f3c4483eafb52b585a529b1491b1c3234bdf0058c48e1c97d6a71dad09587c6),(-0x8993eaba59b2d8831bd7b74077f346434156f095b7d6e4aa944d0ee791cb421b,-0x8b9283cc6d702ca55ff0dad2fe2f51c073c851e89ac6f8efa8b68b3ad3791d08),(-0x1cac08121cc10c5433da5a067bd36e857bbe90b51ef83eb4f7ea95a14c72e7f8,0xcdb0827a4d9ea248b19e8de9346e2e17703e01fbd6bf7692b8523a6ac5526e3),(0xbd4faaeec0422b0dc139425e9e2d47dab5f3bce21d226d04924818520fd95a7,0x1f41dbd8064d07b49b90826e87d85045e7c351d2762a2cdf627942a6c1ba43c5));
(true,(0x2b5005d6c76ea8b7614c4a2f5f297d3f00c158f84e1a3a1d00703fb8f0272cc9,0x2f5238301f62181afc61dcf2e29e85a2d7d5674584ea465b00ff6230eedceeda),(0x2ccfd6009dde2e01b123c98c1e07113a85e69771ed8f2d3edf6264c6d65fd9c9,0x23001feca97d0270de133a52064bf0b048dd82e2974846f8b6d8b95d65d9793b),(0x21e375d1e139133dc575a7b126a89df57eeff35c49df0451e790275ab23cd09e,0x36b996d3512c5e7bf2f7cba73886de9dcf642c27904f63fc3ea839966a19189),(0x2b17f1e82ea84e0d5cea31c60146054a635dc5b41b29bd41f5ee434089c84a34,0x4fd6a8a713d28c40d646c8e93c962413f6c12e4c98047576bf507e7e1879c94a),(-0x781fa9aea768081d8d67146712c5210f3b9dada9fee919b962c177d2d4724c6,0x54b568897b787a838cf3431de94a73fc8e42f8869c7311241f7bc8f19fb18895),(-0x2035b485a4b3d04201de17ea641d383768be51b1c66b65790b365a327f930652,-0x28f09070feec70d194540f5647c8a3a8e5147e645aecaa78e1c550cb7aa129cd));
(false,(0x20b0dc1d782ab69716239dfb6fb6340ab7461b10d329688786168f759c10cbb7,0x47097c2d31b420d909701e4af8ad7a87d1336731e02f5146db86cd653e29b7d),(0x2d6b6ba19c382f12131cf8c054c07e309a61aac7122becbd5c42b9a39c656740,0x2da612de27cf3d971141a73fad50f77016ca9941776b36613a45cecc8e86f74f),(0x2510f4849d6497714b03e9c04f4a16cb1d1a2c5c6f807d66ed9a5ae13eb3b179,0x4101847c843fadc16a13fca9d6be688775750c233b5b7abfacca763ba39f339),(-0xd30cd47573c743ac21b2fb9bd62d936d6d1c698cdc884aa52fb422ae2340f6d,-0x849e5adf83ae30315509f6349b8bedfdddd23dbe87b264048f2cfbcf693c1db),(0x15ad43591beafbac4efb0402c16150ef5687c0e2e3d5407351901007e4bca89e,0x5ffa3b2189e9bbf9d449d7fd9e7d53d4c925784862b8dae29f316f1eb4b0a46),(0x90fe726bbeafd04ef81ce7075baaafbab913474004445f2a28c5b3a09d4c84,-0x73fc6a538a9038d7818474f0be2af2439086b62cf3422adb89a0a55ddb3e60f));
(true,(0x18b8f6506a010fdbde2c6b7ed68f862830d09edb019b96895ad79c84ee7c282f,0x27873d20a4972c57927f52956e5b91750ad0e0e4cda1ce8d6a51f7cc5f305a86),(0x2368c8da7220978a45b3b64242fcf0450e9a1cd890c5869be69c7f8522e4e47f,0x295826efbc35b830bfaef451fcffd14091f7f9e0a161b839150e2e7a536831bd),(0x21c4ccecd1ebdef3887e0c6bc92f23fa7fd28240767f23c3cd796816a884d288,0x298fb97e256b04b3cce198e2ca99fee080acd2435b18ffa7c7f297e94a2e8606),(0x20876e8f155518ff9580bf3fc2af9f64f6dbe7ffe1b4e9fdb5970ba239809973,-0xc05d4d96c9def11911e1fb6bb679c8d6e81628b640173f755f523b0d1ee274ea),(-0x13a86cf8ffb4b1ffa9839950e45c4cf2b89c00555a29fbdd97fdfc959ba63c6e,0x2863791012d97c9267c8de51a2638b583e2120e5b23d2bab317d92865d96c4df),(0x1991cef09e7f2ab59496ef64971ef642cbaf938c243da67398462546a0a99ee,0xa6035c6c1972c5b250a901ff3763b7901b3eda837682dbe417ea676e9b77243));
(false,(0x1821e0aac68263457fea4e6a5ca75935359c3a0a13bcb41fd7c7ff9d1fa9f9cf,0x2c432dc78769db69ef7b3a39e0d8f4490adf065deba36c160f5681182e6216e1),(0x4ce0bd61948a2769088b05c7d7357939a5866344c172dacc2a19c7f4bb78126,0x5fd96e8a531d3c8ee97807e1a6b522e20f0866a9c8ec45f39cdab77c511dc98),(0x878c8dc94a1b9cd5e469710538a57c0db805a24e59adc9574041a8f4ed5fd07,0x14079d70e907ffdd9ce12e871bac7d08caf791aad88a1150cc5fa081e5e11620),(0x8c0938b7d91f79b759df5e242ddcb31d84eaec036198a5b5ad6fcb735c92fbd,-0x124e3a485516a240f8656620cb6f8a267daab7cd977e5fa548988f65d385ee84),(-0x1c736fb6e48212694b1edbd7bd80f21302d31dbd436220e4401074e3b381b07e,0x2c2567c082b76895c72e68f5ff917bc7e4e528fa69f52cd8327d551bb60c9081),(-0x11132d7d7acc988f25ec30ad9b48948b9b24fd67d88d0b40333f93e67300e47b,0x2d9f91dc0b8fb50217d4498d81e9ff13006c52b6824cfa0d656dce79fa1a8e12));
(true,(0x88ea83c187270d0d1892d6e6fe5f38f545896dfe16bd57ffe70abf577976cc6,0x11fff82062f204429fc48c362eb06a89058508b269ce781dcc3e0b3f07c8659),(0x28b329830a0d445f46f19da7c36772dc50958797c35d9586d85402f54c88fc42,0xe3836f05ec711d7340a6aa42f251cb01a24f279bbf4e138b3b81d21d2fe77c0),(0x1963f0b6ecdf9215b81fe221d544372702b000b3b1c6b49390031234863966c6,0x21ae24e286414439a731ef72b266e5201315aea9c627012e1154696f45ce9416),(0x2dbc305d6f5dcf779f158215d04190d57059177e3c3809f53efb44bcb811a58,0x3e8ab27404c9ef08f0bdca6e6f521c3df5034e756a15d91717de5ac5c3d2a12),(0x17caf39bceea9f8de90694b263f49ac1604d9fbbd0fc11ca71a8b96bf8801b3,0x65dadccda30fe2599340b9cc37f3ff765f33eb3c5c469a068db7557a3e6f64),(-0x627f63d894cdd244a790892f1a9891b65b0e8752150b161923f0a3b85ac538b,-0x24a251033627f66e05598570dd162545a1619dcf6d0d80059292335c026aa0e));
(false,(0xa0fa694f0d1ef6f73870f4de533fcec5bad94badf45a477851cd9b23bcee237,0x2ddc46de0e678f28daff46b20cab9929339dbbdf5ff96109a4ff5d86934e6b5c),(0x28d2ea273b04dc8665557aca7b4bb2944fc462da524b8ee50904e6c847a3f809,0x2b1974766d4bf514ae2d0b3557df52d374cc274f5806498876d24a7d526bf71c),(0x8129fd3f83db24098f4a5979c0cbb1482bc2a658b1b13aa8be2f6330c2a8306,0x2e771338fac20ecf0c1ad666563c90dd807d7174f429ee7fc4f1b1c9f7d4eb38),(-0xe373506f8cbc4993d3ec7b424b7b87fc540d22ad5f11002dcc5588de8ebfba9,-0xd774645dee5c543884f8ec1f4e8edbfe64036d5437548a77140349830448705),(-0x295ea473dec7dd155dfeba2d87e878416728f0239062d2acfaddb893546a8f51,0x1311d684cb169c8e78a58121c327c82c1030c03c4820b9098dbd76afc648fdc6),(0x1b57e65e4224c9cd59652ae5fe9982a485717acda524d8fed0135c253749bfe5,-0x61f3809589e4ecb81ba3fa250a69f47ade5a0af93db7b691034ee5399f011ba));
(true,(0xc98b4bb1237b17226e9c7762f33f2beee9c503a4c3a98093b690a47fbb9a3f3,0x13bf11bbfd6ff9caacedbe59f12ba750535fb6c4c29ded0db3e1406a398509ee),(0x9821ba5bae4b38fc41c9b33ad2272b645678eec42da51e5b315564005afacb9,0xb1fdc924e52065d40a7dfd75af9e19516a331704d6f8eb4e5b33e3d2d83c1b0),(0x70ab01e254d6797a620b048d85202428f0da50db06283330f207d0b7b425569,0x7f6d475f614074dcf6d9bc01136295c8c86e19e4dee5919ff9e283bd1b9132b),(-0x15e0e9783dd3fb2d5a4b49023ab580b6498303c1fd85fcaa3694c7ebaadab509,-0xbb6077bcd867d54b7a9b8c9f1960f17b4357aca354a921e0378fc4036bd5bc10),(-0x4c754aeba1b1b43771939b3fba9e4319e6edebb41fe9cd014c58d655097126a,0xa47b18254ec00abeaa5eaec1873a504d9d303be1bd386580428d7f181de98b4),(-0x4e559dea23e4c1a78dbceedf477e9eea6a6dc33388993544ace8f383305c661,0x151a0046dc0c7226fc99a0ee63edd43d432ffd6e77c88b1714b92e198d5090f7));
(false,(0x22a92b71c998c89ce24e97e61adf4e6c2eb132a87dbbbba78781434237927f0c,0xa0d3cea838d3f15bab4592b8469e3c7679356ca6b765ed3f483a940a981e071),(0x9ec1bbfae6ee3f2d039157e9ed6cae7dd33301afaa244baa0eec0348793328a,0x23821bbbf7385f65cc864070451876fc24c60ce25d9ba45d6927b972941760bd),(0xd41c42d26f35f1f8e1b7f921c10d24058856855a8835d6c7ddf4f616481738e,0x1a83c87911b9709f79b7554a5c33189cfe90ce454ffebd14c0d2080ab0e5655d),(0x76266436b70b1c5d88f0639cc6b4ffcccf462b16add11ef3b2b90f845b98b5b,0xd592266462dadb10da605d46deb762957cdf610ba753db7c3e0f5ecd59fa984),(0x16bcf09c35d96ec94e137a6655a597c8e7f2fde3507b7416b104f94a0d2c7f09,0xe662ea1905db2c268042aab430a5313b5d78aae9e89c8f8949e67c9eca421cf),(0x4c4af806472a29a6a2586009165707f193ac7e4dde3e09e2eb874391ec04636,-0x118d0cc52f7cb9386c995c236977f1390d7e79211c1ae0e69ac8c5ac28c361f3));
(true,(0x20ab5cd79a4e51d4fda376995ef458e4f24866e810649b483439a244f5f24abc,0x19db58f158c5e4f96af396d92dd9f776983c732ef9f8626f210422170a35b85),(0x17f8ca72f43f7d6dbfa56da3d49b8e661d771fb39f509b7346a0e9d1d23ebc5b,0xf015c1f75db567e6dc5c4c8158eac47f0220b25d7dad38b421379a60f6f9cc2),(0x101e20006b8f962d0bc553fd31c6d46c94ae8e06b4221c6315314ddeca53a917,0x9639bd7ebf23e394d15555252a11f981042049080c1645e64b944b4e37ae722),(0x583073f187210bd3f58f5ded313e19bff7d2f15174841ecd36baa102b239543b,-0x6ff8150c92ad0281233f764c9f96f1c319f1c86552c5c20ea43dbbba6f49598),(0x16004d3dee07bcbd2d26bf817e15911416c741a74f73a33278162e2e40d13238,0x22e97607cd28a4bf32cd2f707f1c9747ffcaadfb2ca78618ba42a4a4b8d2404),(-0xa2b686d760a10fe572ff18c2e18ab15212b7a1eb4a46cba55a1a792eff52938,0xd5f5359bcc375aea611daead28dce7ff45ddc99153e6f79285b0e37816c0cc0));
(true,(0x2327b1c97ea79d228db5ba8e16d4289916b8777bee10e243d4c3487ff7e8c6ef,0x81fa6c445f9cd60a7360eef56418c198adedf52e21ec028cd5106436446bb37),(0x7dde999ccde0f615e62ead4dad8c17b50598f47806ad95bf07a304ec1f20c43,0x101df673462c5009baf2fe2081896c706e799c51711322749d05305560e245d9),(0x2909b4eec0110fe60d88a0d8d1bcadb6b72913861bde17eeaa4bde03590bbac0,0x1cba783535967d96fc2b5e8c96fd882ecf8b60e54f418a51d0f4e4f48af82d2d),(-0x16691f006178b36950019d282b199a6ac0668bdb9aa122332512a08d13bd38f,-0x198bc03d951ad78f22fd483d34a1241427039ea757ed016a40fc24dd8deacd6a),(0x182cdd53b30f3ba8f1aefb3b2ecfb5f8be8820b9778cffa69a8e39dad6614471,0xbcd988813d3240e2db532a6dfd13b7b7d901067258501ba0f1792c3431d2683),(0xbe2e956e21cbb3ba94853e57fef9cfb1274728a8eded213e7f8c8dac535a96e,0x1e55ca156e901667732c99210f16c860f5c80fd49329d40bb5b92b8adb1faa0));
(true,(0x58d2e1d5c7f6bde61bef3ee28327031bdab9e3ac2072db139f4e1dda439f9ce,0x21e8089e1890586025393200a13876590c1be7037afa4d7bb553e9f334150150),(0x2b41221bcccceeda5f317e18d863aabb3196b8836e55f7d47040a9a710742609,0x2119fd1a1ef7094fc92f9797c019393a78d04264b90149d288c37cbf625218fa),(0x11ed1fb8dc4d932644abb38d811e7fa6832864fc1e7bf0b27444d692ad3be9a4,0x1ee384ec004028d1db7b74b3cbde15641265a6b45668da412b77f715ad3d2c08),(-0x12934894674675e27821e4a245ec3d3dee8568dd798269b3094edc73b20fd4d8,0x3060e4db201f3e811847c4d75eabad6b263b572b321d9a0e663402eacd4bb006),(-0x171ebed0a697ace0950be2f5d638551e42972629efd0400e3605f72d092d555d,0x7c789b9513878d4528ee3dce91c6f207e588605abd769b788aa3ba16b9e614c),(0x7d73bd9fdfd423b77ea5b76a5f8cae1c42baaff2a554b65b0b8537b356f2ba8,-0x1abe44ac298759e07bf92dcbb39fbc396516938e96821cd142a4f6a86e8d25c5));
(false,(0x20d680305a7558021a7f2f85b28e26c834a0c41fad8d2b31ae54a3e316734335,0x206f0b3a41830d402ee7953c4f93d93462fc9a5b617ccb9749a8e23f7f871d81),(0x206f235685319bd5348f3fc47d0b7fcc04520b76ca719fce79e6985bbce98595,0x5219beb95e2c9afa0717d4208c01fb143504b7c67a8516a9ca121146e1ba08f),(0x7c24cc2fc61da68e7d4a0a66774eb142e65db1cb490305523e0f944b6868bd3,0x51e0811d0278240289c60f4c99a93b083a9b2d42e05b23dcd91d9c16120f8fa),(-0x801be2470ea3d81ac7b1694aaa734f9c419a0cda6fa279b22b078de4e668196,-0x1205b498ce22c341aafd86bd729277eb99d482e601ceb075e1ccf9848e46d141),(0x8b8b5632b7bef342bfa28efa1cf49f031cc476b8780a84af0f04fbf9061bab,0x2c049e1e6e85f814d1a798fcf2dba71b21ecbb9c921f589c9e8e1b3dbeddf969),(-0xb6771eba34d16b010460b5e8e1983a9fdbbfdfd29b32eb92519a782e2c855b2,0x1a3b74c36cca1b4316a4d299212ff0af0c22793263a10397678d0d048a327b1f));
(true,(0x2692315f89238488250e36cf0bf4b3b307bbb59582d91246efa01a8d9bb62f56,0x12864d39f5c2bfa74bf5fcd54dffe7bddf11a0fa621c3fd84712f6284474b5ae),(0x1fd63e811f3875ac140c895c3dd6e32e90f7e85bf75955d1f69a933ebbe8a6f4,0x103913c0002017435fedc1292f386ed6d898cad7683ac7147c3d1178831e5a52),(0x1202f22f633ee82161082024b04b0618b79af006014d65112e3a6b61c4da2205,0x1d8775503738c03d2e917a950fcfa33f732b208e8fd420fbd3a57f6749cf4df2),(-0x3721ff0da558d003251a705bb8c6feb6ce67a95f1413b0bf5cb565f9c659d284,-0x689876dbe27ab12efed276b14c801e123864a94a20ddfe7a1a3683f88f13dba),(0x17a6eca91c9e6d9e0127b394801194305aafb1cdb4d75856f6e5301179f6186e,0x1d87c6427c7c3f7cf71162b8cd4bc9b35b444a7ec8da8690ca68e02caea4b6c8),(0x4b8d3aed02557d6297707289c9df59fba9bdc412ddcc2246120eed98c8510f8,-0x89cb0df737eb08bb78a60cfdc814a584523a919398bf78bc5fcfe41e32f8300));
(false,(0x362e8c2726add43c5a95a469b1b9a80f8370c3546d577d2e64ac08e9152bbbe,0x23b978f630ce683b3fab2a1f78c5c806aff03f883b148eac0e24ad40c8436764),(0x1cddfce3ec8aa5c2cde3fa556b70a5bc484573c2d425b52d45fe795bab2beff8,0x2c48af0f700a400ecc5320fe2446cc0b5edf5ef15bd499169f1e82cdd40d71c),(0xa67c16227cee312da5eb3b341add6fe23e7e4b838003393ce207616c32dea7c,0x1bdb92412b6ef2c5b4c7034b2a0991466bed2e84316b3fdb53e979ed8887e72f),(-0x77057a6374ca716ab08b71ccb8a55266b10a9bfdcccc21ab04d747d86a0c931,-0x521390f626dd929e3b84b3f8ac353ab640c243b93ab822d6ce7b39b7fca9453),(-0x1a22d634102c77f2a2aea73f1e6a718f74fe5b3bbc315576ae680bccaa581373,0x4fff6d638c7cc7805fb12be78ecced44467d445182b061dac7efc0827cb71c0),(-0x9b9ac1210aa8cd4bf9f1a965338bba4ed41970177bd0e7c6749eb9313885b67,0x32249fab868abcf4b56c535c323f8cacda2426dec127a981d4456f2b9769d05));
(true,(0xd0fa5ba1662ed1cbe573051836ef2ba50a4da01e43e15d8954d12aee1778e11,0x17e018940541c20cffd5b432b5c4ee5c64f7669eca9e43295e7713f89149ec84),(0x1cb01d48ab8b8b167dabf7adb51ea15b41748364eaedb7a7093b98ec5ff0e08b,0x2dbb61a3f8608dcc8ce5bfd3bb90261a9bfbfe2ad1b56f0dc4a2900fdf76f03a),(0x110ec9300f419b7f92baf008266179aee87f353cdb8628ef9b0309238c6eb94d,0x15532851c16ee8bff22ef893d4889aceb85e5c90e6dba61d37825e7c906af577),(-0x490ea3fbac7fe0a4bbd67b18c36f7f11f754ddc2c6438e359fccaff18b2c6ff0,0xf6623f1ded2f7cd7d02412da5420230d2ff193c68f75d08146b5e77ec50eeb2),(-0x84119cc10ca96e5d4cfc82b1743c893190450a1a3c0f02cd47b88f06a768a46,0xce35a3120adb41d8d60bcc2ad8f3f11a0f2051d2ce73b3195b8ea5d5a77df3a),(0x153ef27108793bd8c89cfa18086af72ae96f847174f5a4c3915c5cbb9caab2b4,-0xb81fe0547726cd1a8eb2fb448c56c62dbc29965966aa6c521f800fd620e6110));
(true,(0x209341f15f05fcbaa2697ba8e1fa7afa32c158a02337777112ad25364f9a4f20,0x2f34a1f436f353ab19349d01e0d0411aa8f22ef26d904d47384f420fc5c555ba),(0x1199fa7aa196d7192302f96f0f3fe5d5792ac76b292f3632745f896fbcb5dbe0,0x16332064d824fb4d4bc1386816e3d6cc2c9fe2bbb5bcf294cd3445d9f927825c),(0x5a5a33b282e76ef3ea8791bd36b3f1cfb811a70676dc4a31d71691d636d4e,0x205e5b60a5702ed2b9cb2d32e2cee9812d58afc1931d0c4866314ac7742d2a17),(0x3bfeacb9e8508d6a29a7be9d1e7c1345cee3481b1a213d7ae9d6bc8ef9895483,-0x64ad7422cbd48baa4dbfd1f93bd1349652116a2dc8c77c391e13aec7c13b4630),(-0x181ec8f574a08deac5473af0438724ef089fc10e97fc07699f8e685903c0e016,0x3f8dacfd7f41c6beb3bad04e55f425b29f1db222f87aec17abb49d772a9382d0),(-0xf7e135bf409d7ab81bf9be78aa43d14b8e52778a280443e1c9bf2f5662405c1,0x1aa7d35f506b9aed07797ff20e6d315e78141817855efafeb7d78218d1946310));
(false,(0x10d50aa8c6a69460f900be76c6afd777bfdd49ebe80acf1052c210c94bd33531,0x1f3f1241bc9634eb321e39c91078889bcd39238f1d6de1d241102eb98887beeb),(0x16a59b3960a406cf3bd7e03a91bfb2d1a147ebd3a7379561db052ffd300ca9ad,0x2a0301359a2542b7c3834a54088705ac497275ae0daedae0acb3b819d3f9e0fa),(0x207cdc2ddb6c8f4f4c948a57f0c48b7139b28d8f1dddfea8af473efe548f3a30,0x26152e22a8688f55d4acd5ea849a453dab4ef5e8f1ed8419015dd26f1eb9a09f),(0xf1d8b5c49ed9449a1ec37c921d81f5df5a27ba3756f9b2ea0353483edb309,0x54d2b352f1d8407440814268f6aca089801893ae28e418e433bd00818fd2bc7),(-0xe52249714962d9f3739fc9ebce7e50c0f70543f4804f3e49e26d9c3532fe59e,0x15bca7ea1f8d22e8a7554ec3b619ca0263968051dd246b70c08db15c54f6da32),(0xb099e85a0769b99f1015dc5080855c0ae38b1141fb55b2436810d37485d96b9,-0xa26280be39c140d15ab24ba777c72803693d2bf3e6c3053c6662c1dcdde4645));
(true,(0x2f3ffe1aee395b86bed30ff63482f57aa9981a7617f41320712e69a594defb57,0x2da59ba27d0962cd2b4a1d764226f5da2e8a48ab4ddf7c6bfad411420d65f1ae),(0x128a74542385ef1b5ac76d2c62e02b9781377826a3d52ea8ee92b3ce6ca716ea,0xab9417859cd1176efb7531c6fc2143213dc27d8fd8211ead4cf4526b95d6ec9),(0xa642df8e47947ce956bb1864d8d4957d8d78f05418e981d89007db2f6a54a59,0x2e5474b7cad419276bdbde6b439cae639d5b797018357f51529715f5895bbd47),(0x45385351776b5c2214071d212c93fb54b0f7451dff5c4aa29d146e1733041aeb,0x11b110d393f387da6009cea225b5162a173a7247a980a6adc0b63cfcf63a102a),(0x313cec8b5406444be09122faeee8a06c00dbee46e03258b8b719f097a53ed2f,0x5923bff89cb178f544abe3dbef41034c593cf07f8c0e04ac20b74b7a047a83c1),(-0x198110b0390b68195c4e0128ca21ac3e0aea05678a53141173ae1864811b02de,0x226c477272a03c411bfebf6d932b03e6a5d6ece4db2738d0ef25756c20a20fdd));
(false,(0x18c076dc180bc0c5feb896093bb17bbdf30a39c839419c9a0f03cc2e4bbd01d0,0x73b9e5708be8aa010854a366459d8fe9488fdc576da56cc11f7230d625ae553),(0x1a24c771c63df51c26627ef701efddcfb8506f467de7b7604c94fb9a7161e07e,0x2e0b9f31dad99893ddfb8a2ac66f1fe2c0f444747aeb19b8ac4d7913c51c35e4),(0x2de9c78aa0d868f31b78924853beaa636c51e5da5393b7d9365881413751e16,0x15ce5aac9d724b688624eb28adab586a384173c768ffafbb48273f9052ba908e),(0x93b4b82bc503a6a7cb6b00185482186731741bc0434e946ee08eec3e9f5b7c,0x8674beafcc142542ec61338cafbd80447d09ee6e5939e46e17d9dc75b3ef3a3),(0xb9445314ea98985f8fb377560300613af54ab11c79bdb5c546abfd85ff9492e,0x76628d9b7f7c18a51dce2bcb38f58862de99b0ce837d960a3827305491f5387),(0x163ff2530ef503f33d8eeea32fadf8aebd40fd2de32fcf03caa519aeafd905e,-0x1333f709f352424b51411fb2847ce622914bf63f8fe774836f46d3f0c72320b7));
(true,(0x2eb27fcee5f65935946827332f50e7749f7d5cba77c6aaec7fff74f042f35916,0x9a4a552d025764a96dcd7dec0166ce38ab5aa179b9aafea3280de01d021a90c),(0x83c7b839670f892c0644f8c7d4e419cf6d161a5b7bb92fe6046b55afef331fe,0x1a26314e26bd4242bc003ad9fbafe149ebe234413c91be3492cb819d931126c4),(0x294c6d78fe8f0e0307c7d6f681f058af8d2398318efadb29d709a77b531a9e01,0x7e2a30ae660156eb715844960bc1d0fb6393841fd89138eb9ebaadcf96622e7),(0x55e9d4c37961efcde70b75ee33dfbb6c8be655e901be0736b4f4d8614aa5a384,-0x6a070859a6c91c345478ba04400d0b400163ab2883e357c18f21171b00fac268),(0x2b23f344fe0d7d6ddab497604100cbd0d34343a42bf7a262df5c532c11416fd6,0x129c666dd637b42bb4d770e33d225112b95da118af8f40d1604e016997d1c25c),(0xd50c976f8bfe68c7c964cac52dfe94b62dc3f6f2a9293dcf4bc110b105f57cf,0x16c497e6eef85c3a19e57b5dbfab9a5c5c74faf0b216e7c2bd7a3c833e05b7dd));
(false,(0x127d620da0380149f9e6a5d957d3a7e6cd0ba7675eb752bcd5eded55772568f0,0xfefc433ec126069b78bb1f236efab53596273b8071bb91e5df3418e35200538),(0x195cdfbb2463c76eb637e1f86dae233b2e70e3c200604dc604440274d21b9698,0x769083813865114a0ef677abce9a267b320e8550fd9a16616593ac68728a580),(0x2e46f62d321a868924e0652d37284715d90092788c3d38091c0662c1a5b5af6b,0x8d6562565f7c148af7dff2c16bf1577772eb6462392a336533c144418270cca),(0x6382c5c22ac324abb7e4b48523b4b1369ddba06d81995c4d3029ab969e415f1,0x4f7596a6047ba1ab15deb3a4104877c625af85809bde9e533645e186e05a96c),(0x1d0fd1267b7a2e7b14325ef5a9be40576a064665668d417b75a75131b1abb5b,0xc2da212a3db80555983a4cf27c1796fb79c34126787c4a4f1862460bf559b36),(-0xcb70775908ebb6e8460d190357230f04646008662b0b056e4f8b533853917f4,0x18509604a94cc9a9b40333b4ef88d65afdb05e8d32164b5a8dc77796b139429));
(true,(0x10958007f307d23f3b4de2fb37a8b900e719eb7d262477b0ba0cb4e93aa24152,0x12d25783fec333ec12177a3fda995ad36f7bccf7b868873d41f7cc65e13f3585),(0x139a0a4086621e6ec43bb4143ed8347552f9db4646402f0d8074a84505fc6913,0x1061aeeb0217c0d7f4d9e83d7d05fd46802eedab8d0b779a007d257971213c64),(0x2d6f4310c42ef4449af26132c8fe1a91a7d1b03fcba7a0391a08a34c25579b09,0x166cdec0218f044c9654bb58d3035af501386af88b263c2c07a4c3892a3838bc),(-0xba165bb6831eea5c2593dfb4d34bfeeabb78791d6b4b53a72069fd5dcab9528,0x12c0a37036ea89054c8048887f38c21c1a5c5f6943f0a1c051d03f0609a7edba),(-0x1a31de4a0c0a83bf822c3ac08bc5da51af285e643f17e84b9e2a02959018428,0xce6834db4c1e6a31571d167434f31196d873f3e890c552b350cf3000b30fdb0),(0x576b1d4b67c044261c92c024b5a87a91c67962135576e0252266c874d5ac096,-0xd5710715a12e773a04348448afd5ef8a532a091a67b008e88ae92d19383b63));
(true,(0x2ea0a4ec1256719f49d768e9f9239a5ff1ab64461b63c63522cdfa13d1fa8a70,0x2b87cdb94679aa444d9792418c1a848685da3938cd4a8a8c1c6f3b41b0c1e59c),(0x179d4c39d1c806321ea86ded349ef46f78d25cdd36dd97198b496dcb49fbb60b,0x15de26ff3cc5d286a01dda8c01ce5749cac40ef766187d844d1be0a26989abe6),(0x4669c5e67f01e60c118d1d71d0eda51dea9c878b65de1e9bc74853607059fdf,0x26a57abb281a0a847966cbec21b7faea17188a3cd8293b774dffb48dc949ad70),(0x2807294b1ff7289f91a0ffbd8d9da4249aaaac13940406d7a05900517fa58b23,0x5524863bd8e426044082a25734ae4c371b5f9b428094f94b2fb85e00773b2b90),(0x5c520d066b69fe5d8cd30aef2dbd73ae191473d1b5e133b0e1a22684710c3c9,0x53e30761b463a0e62373f5403e2f64f0ea75f31f1f1c116a07201b365e6f4e9e),(0x11192ec61ea2a94a959e6791f2f653175afc5e3ebf6225aa7322b33e4bfd3b0,-0x8e55351530889ac52c7e77905593fb06373270bd24c91bab78988abf1fc5274));
(true,(0x2641497eb5f1e5bedd7574de44e37f3389e6563051eb37103ce357ccdeabfd87,0x32c4bdeb1bfff6a06c49d9d12512748a729cc14eb2b8e1815398e120c1d7e01),(0x679dabe2f3682bbd2f528bb6c12e38e3e655964fb25a749fe16a2eada0ffb85,0x24fb9d5154a61f7b0c9e56d4acc1e67bfa7cc87da2ff221578b48c39992e6247),(0x19c0c74d9f9f4c7ce948b6ded74ea5c0fd4eb52b2de705b7908d7da02793f297,0x2bf2b49ea0a17b8cbd9d10880d324d2f5c1e90a9bf6a113d9821b9534466d4d3),(-0x308f8fcf2675b33cc2e1052143d4d24badb8a1c8ddd3b7e0f197b77bbc7abeb,-0x258ff36f25a546bbb7440c14ef1156b2dd0ba8139fc48471ab30bc729409a22),(0x1e0897d14015e2e6c6312b55eb341466827d045048e8c0158197c183acfb1043,0x50448b07f15a8e8f45e412f40d571de441ecd45286e83ef4be54436639824ad),(0xe8a1c367266e2e281930d1717a8e619ce6b35c88029854525590b3130dd0543,-0xad33af34ea35571fc2287e85a29578a20b1595a9101bfe48286089471cd14fc));
(false,(0x1dedbefb6fa7d2546c459c80f377bf727c7f756557008a6fc1c5419d04799289,0x261507a883c74087050ac5ead09e1c90e8bec209b5190e5e3f7bbcbbcba565ac),(0x10e3f4488f1d6f3d0c0f5fdd27eb74534d7abe8c5d19b695dc6306aaa98b27eb,0x24deaae4c9e6df7f7d85e11caaf0c81aeab7275f48a51cc31076c67e1d7aa123),(0x66fd5553a9ebd8734c4e00781b9167686e968bc41a85201dda9888944c78e13,0x2d4395bcc377ecfddec23e3d62d590f952214b1056459526bd442462911333ba),(0x13d4f01e94ad09f5459709d095d605aa59e96d4503003ab1c38ace51d0cbef07,0x6ba0a37da1ea98bb7e5c5b6e24e0f2341217029eca20470de09edcd9645c8fd),(-0xb7582cb401961c2cd1056b55436079ffa5295d8df64ef1644b02307ed8ce084,0x2f1ae2f76d3db3263f84f6a98767662e2698b829b38a3766102035d8e5f37ab4),(-0x687ac03b8ceffff526866a00e6e72a8d8e524b2092e1889a8100a2843d55510,-0x820321ae276bbd94c39a2a8cb2f7816caae4e3e3a8b87df641d5e60e5a0d727));
(true,(0x134149133dd790dc3178fde3676930aba63a81dd4ded833e064216f18c76f1b0,0x5e2b87e61b529ebc944e9e5e35accbbcf724434b4ce7a4ce953d8744ac5f0e5),(0x279e4f60df02f14b11b012b012ff4ff42b43d6c341b70b246546f74793d6a231,0x287c4bb2e722d5165b0c5880853ac87b7a8c0d7781ae0851bda3eb953f2f7b9e),(0x27806f414373037a412700dcf7c6d135149316f8822edb3116c9715e197551d0,0x23d59e9727f0888b2e24f68034cc1f60e9303fa216ee71e09f82fe2e4afe3565),(0x3cb309d2742da20d1c6095344b7e195216bb4d885e474cee5a7f1b5e9547f114,-0x27a05ddc0be3960ae21f9037bd75b710edd15fca4cf43abdccb71e998a7b0cb8),(0x6f2199a747437ebf00943a40c6b4b28a665705cbdd27feb21840b94770b04e0,0x4af0b04c5e80a409a44924fa3de12260e37e9f65d4d13786e1630f405722f24),(-0x89a88dc50f9a4b68136557d4621d74e20ee6f048c971870f67d9872b4d4c824,-0x433f5c3a8f39587fed3506b8b2fd44c093e93b3eca003711d068b54d91ddecb));
(true,(0x97115f4f1475eb0bdc66ad632232ec36336b5958a80ea842f93c4178cadfe42,0x1c1eba53f3cd544f0495f76278b5edac4d34c2aa02d8eb6bb698e6d69b94a39e),(0x1171047cffa3e70ceaeabb637a7b93246b36f0e798dd9af979cac19bd64e7530,0xb8e6389e96db553c0fc8ed04a69d50cdb5bb6f1de25bc8218ecd49fa393f2),(0x8cd1bed6f8a9fa466093e0ea5511fc2d8c16b0733de5cbdfcf5270dcc9a9b1d,0x1b5485a70b88d8d0045a2d84ca48285324ac9e8c772cce4999dc5074b6671fb8),(-0x15ecf4c9bf975c6393ed6d9d0b467a754b974d5f29938ec2c3d8cd1936bb3e65,-0x8afb4bd66f83a9fb1e920983356922ca694913f69764cc510e49e581c9ae4c60),(-0xe7f83b6194617349a412a10fb153d5d19cb357e810a72deb1e2a7acf13a8a5e,0xaf91766dd6f3067e5fbf6e2deac27d440dcf3891f694f294e0d006279f61066),(-0x132c2e59f380ca6abfe1264b70e2b3a44688364e62abeed47f84b0c1b60b8215,0x14c6f262f211067fe954e7dd22b91d8bdd49e711ccf25c5247b84198dfc87adf));
(false,(0x11fa93107ae47516b96f15ce24a15892e317d3399281852019fa99caddfe5f3f,0x21cc509034ab134a5d8682926da86b3f660e05db6b1b29a933c4ebb7098a5fe7),(0x4be5ca3d1047e7f035a52f610c85514528f6965aaf456377d2cd1399d44edcf,0xd15b6c5eb238e507ce99ccfd417e9c1b8541183d4fd1526db214ff8f9f1001),(0x84e4c6e20c83175cdcb9a436c7f6a04319f504523d687b97e29c58f35043a56,0x2ecf256a058e2f1293a2291af66a4d00bd4d9a7e3a67690f33c9be83d0bd0c1a),(-0xf615348aafc96a5c11c252ae8abc9e1a784822b1b9acfddf67d3f3795d84776,0xe0fb1f5173e2d88bc753f767898decb6283767a02aef281daf0170857327928),(-0x10ed06bd31f799522cbe522885e30b7546090dec55f48da2a8d6422e24755c44,0x191d1d69f400f44f66a621054e2776f17aed811f6775b058a7ab94bad280439b),(0x541d9fa5e0593108d0ba576225150336f2401ae9b64c293df7565f00927e1e3,0x894daa8e53a41370d199d9df381a43acac315c25c3be7de3f556d6caf17f6dc));
(true,(0x23d07527c100926a98962a3c0e84982d1509171a5ee89fa6bc67995f6b7fdbd4,0x17faf23804e30580881da62577b591db9278040feec0f7aaba984aba0c02d1fb),(0xc04128c1ba9b1e7fbe79dfac516a2473c3700c2d4bb371b1cbd442758e0cad5,0x23113fd49cf95a4a572c7139c67df051122430ad0d04a29ac658cafab6cc6e67),(0xfd2b23a5597c1b04ee7c44c881c4249f3e341f5cdc55abdc900ea94f8984761,0x20f3cde9de174d500e68b358b0ab503c92dfb1a27de191a905439c5f433665b5),(-0x237389e9ff4a424e47d1a2bac00e9e95777eda8ce74f1d8075a793187d83abf4,0x4d096b66393b3202556e7d90a258bb125ac1c0f8ff1fdcbf2d0324030fd1f956),(0xe9f5d7ec8f105625cbbd6d41d0063c1962937de80437f1c94bd2240035354dc,0x237ebdc5be30fbbe500746b393e475ba068ff2e9c27b6820da9b1aa4d2acc5b9),(0xb970a4d6f8e1f1f0c6952ca5fd9891e2a23c3fb9da07eab404e73564450db95,-0x1cf395d34f996f911cff5f25ed3b5637ff5b87ee7faf9276d18dd660b3f73c0f));
(false,(0x389e3b6a073b2ddf6e1a7d5f91327fc32cf690867c98e12473d994de2c8d959,0xcf0cc81764bac4dec87cb1e55a3b729acc07398f91195a3efa018d47ac198d),(0x101f8548f42f1520c043be6ae157c864d73a3f50b6ae5de784bfff95b6a8875f,0x1f1da21b295086da19ff9e911abc5f0244aa7d626fb8f8ffc31205b60f3be0c4),(0x2f359c2a42f9935367352d80821f77c0f2b666db0cc0b4edf3155ccbb639324e,0x22f5c09d7a71a8bbdbfc096d22d89647a76286027dc3224b4882d5ba3fbd9777),(0x1091896ae08c44e47a7a4a1a969dcae188dbf38318d6bd91bbb1f10ba724390,-0x7ebe99b72f99e2fe7f9c86e57992416aa2a8b5d429e954815a0f3b06f2015d),(0x3ec8437ffe2f2d65f7d12048891ce593d380e0a2c98d16cc913a6ab748f621,0x1e47e72feb79203ded9c7d2234fd7e038426c5ea8d3564607d0f308f81ed7b),(-0x5dcb4ec384fc248270dacf1dbe3dd6475f19a0ffd98c0e4cde09ebcded9f10,0x38669983b70722118bc88ac79f5b56d28c09add3df0b07dc4e7966d599051b));
(true,(0x35964a707c966c14e317305899c667fe7c9302c6a22d56b9cb8ba4180787212,0x30643de069d870028fa0acfcdb16222316bbbd30c670147e08e9dff3b2e4a7d5),(0x1d5165342c36eecd3ab5996cfb49be1931b5a602b5ef57083fdec6228e253f1a,0x2237546acbfc5083ab76ca95a98195eab26fc9bf9a9ef7a8fb14bf671d1ab4c9),(0x22a52d39cdbd96ae7acc27014f191c8156f05678c76bf7b51cb067386b963024,0x1719c2c4d45599a24c5a587ec3baed4c26691679d2b9cfac47eb320a087a28eb),(-0x137a843af165dbfb5368fd0d31b94d5de6e300f639535efbca7c25bf51bf66d7,0x250e098695b1540158c3872ac351a07d88a5a621840888146d490ee7accd38e0),(-0x3028d63eb407c3b5a493b5e9d6e4d104a54794b922a0eefd6b1fdedba703184b,0x6b2c702d1d7d23eee4eaefb6c31488773facf4b426b0710fe5f55bd102890c5),(0x22fe8fb6daf80825817241dd48dcde594610be1194700d983757a243ef45067,-0xd68c9e65fdf1ec1251293bcf925b864e696dfcf616e1ab5a87b6f22b63e0c95));
(false,(0x15f751820d0a99dd49a220858dd4c568ef891864409fe9d60ae6454ac7f29260,0x2d91ef898c8cc766766cfdeb37c42ef121aaba3cd78f5e7041781f711368d28f),(0x1c0bce1fbe7e381fbdfb0533a3a7d711daa31dea62e317e75e2e38c2129836b,0x851f041fb95be7a13c677e3aaedcdd0e4b978c8fab92789f6a9134bddd741af),(0xf59e469a5b43974accd4cf33edc16478f11acbbf67801eb30d1c956cb9903c8,0xdc3517c4026ec1320812f38f371a53a05d0673c466259be74e8de424efee577),(0x5bdebec100bf0510dd9dd11807131586b323c38f0945cc2d1e230e72356a1e5,-0x8ef6c5d1445a083b942275726927788205da14b20cb293f14ab34d1095571b5),(-0x20f12452396cb36168989df8e005798614e046076ac5c2664c5b350b42033195,0x295ed66be466d6833add23212862e34e236888b9e5fe89a8b982ce1e8a60bcca),(-0xbdfa88e9ea03ebd6cde8c7a90b91002e669359a5f6fab37d1d0a2840a211e9e,0x25b666e8ea81950d54e0fb55307285e61b1369d122965e50921e4da22daafe69));
(true,(0xca33fac57be2ba656baa7f53ad907b3c53614ccdce977c428ffb2b7fa66cec6,0x1710f85953b4fbd555d6382b02d581210199eb53e3617d73c706c3cc7f9db043),(0x2a524e94711d84023c23ecaba12f861dee40fc76989671980c2f1ccd02a26038,0x18892317c5c18ca2b42e03e8ea6570d9f34375d07d87f5bb72fb213891a3b486),(0x11fd5131914b3d99418686774b016aaa9281fa0bda8a3201cf2585345a84c226,0x31b9d4ef3eeb8369abf0a66c07631f42ef6727d411782a575656449696cc959),(-0x1005effcaf96f90cd77a8ce15109d3872f189222f8c53375d6014f869c8113e,0x1403c29833450d47478b2a487420ef0e122bffb4c603a993b17675559be34fea),(-0x7b1bf673adfa792611a2d9cb1f641c710e32b352b5a11a10f1c1776c279ba75,0xc0c34d6ccda9cbe904c793b4bbfc983a8d4f1978ea5313bd56566770b2e7e40),(-0x2dd87b51b81368ee5052dcae134367d76c96e2d19bdeefc601f5e2180aad991,-0x17927399dba27d7ab5897e2574d37795ccdb048dd569b63204beb95544dbd9b7));
(true,(0x2f13cbaff8a810b5328fac1cae9143ee30353f33cb4e85348c11cda0935f9aa4,0x2be4e3ff1c17ddf988674e29f917bc8528991fbce62ba47778bd46219fcaad1f),(0x101baabc3a80e701eb5e3bb10ec9847114965c669c73c73418093167ab7bdf05,0x4c341ae129cf90997d101175151122c28898e7e74fc4073291df680b1809b80),(0x1dfef5aa240c448578b26691614186ca0350624a39ee84bbfc2c6db97e04991e,0x1b97bb05ea1d63f0e1d3a71b483ca876f8896301272a3787d4545ed6ff096c3),(-0x2c5a9b7bec81b689b198c911d455f59a237b7ef26499f0f13f7645f66bf2c03e,-0x5a10c989fa9465c6e2a4b5516d8277782068d3017942bf5351506ece53e33c3c),(0x5fbef1ac9a913eb2543470607cd9b4f03dc3506c1fe075793b0a49a10d71656,0x556750142dac778fcb0c6169622c5b2937903549009387579f4a1cab12bc9574),(0x790f1d7f6477dd8f871ee2af007802966d52a7e67d0e62be73a0e7a6452cfe2,0x2b034f40fcfe811d132304dca4e492915c1b4f02c2f499e5b5ca83f998ba914f));
(true,(0x1385e405d5546972dadc848fccee0b2710efcd2ecf66f70958dd01f44809d316,0x237fc0e74bae247f113df81488a6c9e9a5b0d2bf4a61fc3b9196dca60604ae33),(0x88e73e54dd709e48d331e77cce6e8d8647ab33cb0d874f94266ad8e7ca01a94,0x236096995a94a5c10a546d1a6514b8ebacddcb59c53e8722c4e43ce705f7be10),(0x7b51aab7bd1499727e3a83f9ce2f7bbc649b94f8e4c21afee952105d42bd615,0x9a32ba4a64a104deb7b91eb81b3f3056dbef61ee4db4e73927a794ab107b919),(0x6fe4f0fd050f0cb014c11eacf28123d9baf99ab6f19dc2c81f53d2dec47a2fd,0x23e34d2ea2de1efe8ac60c5b55e8a491dc722966e49673645e9e8967fe860bc8),(-0x122a385dcb4b885d11246a737743f93f0c778f5cfdd3bb007683b50147ee4d85,0x1ca4a81c0e04983843ae8ff4a536673c820318e49bca087ee35349bce0c90eac),(0x1981333d6461f944ea6737af7b7a4c66584b03c954531e8cebe0c07f1e8513b5,-0x6cfb48135b847cdb0ca239ab8b706197a1dc01eb97f92bd2f5168b18e7052ff));
(true,(0x71967bc6b995f7f7e24d5c7b1c7fa5aeceeb2a21cdc728f6dcbdc18527a8dc5,0x28a671d1392dea2b4c60b5e741813387c4a41c61d946b1ab3e103b0e4986c71a),(0x1d1bdff172b7aa213f9ced4e419822453fccec33ba2457cd31f18c5a1d4725c0,0x2df0d7190c766e112048e1bdb40ee09cecf79a395f21bedde206a9b5c49350c1),(0x2504e923ae927da96962829e7380104d4e3bba1b39fcdc0c4e756b3c364ed0ac,0x443aa966a125786c58cd07b75f37826455e5f16db24e140e887e1119a3675c0),(0x3b1ec26c60cb2ed8a12198e2a5e4002f2e6cef3084588ec4a046268fc7134902,-0x15c1529474fc8597d9d3256f3dba154042352aafda48a09a72d415bcec21482e),(-0x211b04c2b79543e9b610828e804a87e61a6952c627e82b6cafb915e3a4475df5,0xbed51b4a320160c4389a50fb06075e1b00c381da39c5ca7f595f47a8e967745),(0x5dbc31757c3be1250268b73837cbd0159c60a62e87192dc47b962becb4d4e3b,-0x12d06e3ec84c9b467e5463d9c561214b45793c6349a6f90a8d504c0a2870e24a));
(true,(0x2b304d3d0aae19079ebe17bf14e2dea1b5acb89d92ef19f3cd6e2b7ea42a2d97,0x2c026ffd4c74de5ec869d67701ee9d110726e1cd6ee741db8ce88691ff7d5dc6),(0x23eac9f5fb089834cdd3e012732a03b7bf12b0658ed32ec0b92c46639f2f6757,0x7552c3c2f826aa6b0bb4cc9a9ee49396db31b08e1c323f69a4afca154c46795),(0x28fbc0d63fb622c50c12596c6d96d6cfd1542e9b60da7d3a8b6e2de32675dc11,0x8b82c290290a88f63f87576fcd82e9b3803bf84a4d65be40f81fd66a65c52d1),(0x88a245d47e668c4a27da946d4f492d7b3a508195f3d33e134f4e5bd7346cf3bd,-0x5adca9c4c9bbf50087de3f92f2a44fa2773b6754ea70c87dfc0c20033d94e090),(-0x17aa5d8b72bd4e37705a96fe4c6395668eadbabcd8a9bfe78d51bf24d968cc6,0x4e8e1d5d703678e4f80ab098688fdb3cc677ec1e5f775260be426d158c3fa41b),(-0x2930211cd9eb991047a1c737769ddf6663a8566ad6523eed5fe2c6c7871e387a,0x1c43e2e09679657466868f33f236b6ffa56affbcb9dcc4c5f4c4af9a5a6e6d1f));
(false,(0x82c5c0fb25f566d202d9187653fec74d1dff7303042ae2d9ca88912207b53c8,0x24110dfa207d5f1641b0e391cb8cc880b6d68d87c15815b4d59560068331a39c),(0x1be14c60c613424740c554766eae5becc07eff5d00f05cac0540648cdf71bfbc,0x273010c7932633254ba3cf2625cb24a30e4521becd50d97ce05e37150c0cd0c7),(0xa9bdea5897a44699c5d3416a7ec224cf39f917702da6aba08cb9394096fb57f,0xe7288b6fabde006df556091dc66fa961fb57c1bd158b1046ee61e1c26efa0f9),(-0xf9844dfe6a1eafe1eb8334b1fc7eb64bee15a92b877541df8b0f1e2008d2703,-0x5cd2399d777f214a1f264c9c3af7295483ff574ae46a4c731e75e0062775c36),(-0x19800996abf83cc1682c8455dec09aa25dfdd505c28d5a602958e6f50af388b0,0xc2ee3584fc0af2c73a46aa35744173265b21136472fa8b319938c1e2a16834e),(0x1919615b6d609460c4e90f328322e8f1b902ecb067e864ad6a0d8038cfcd6700,0x9c1c7cfbf051225d6c1ef9587c30b829ad941b0dd0dcf05e54975e269bd596));
(true,(0x2acdb88b151cb80b0fa0f2c750beaa1252641baddcc60ab2f4146452c0d9d4d4,0x3fabcb00171d9a4776b3ff4ec2192fd050a8e77ac76e8c013763dbbe1697215),(0x7606ed71fcc5efe34487698a093f0340f33b9fa0a6f7130cb7720294af24655,0x11f26040d0b8570d472c98b98df63e3af76b0c5b922c1429218fba7cb9287d78),(0xc385347c08d3f5473b6f5695c66182474d5cf702c2a8652107f64b8895aa0bf,0x1e7f57db43d191d3ff35eaa57b78b98d28640824bf145c656af810058721f62),(0x3f680fb9b799f12c3e7fe09ff256eb1366c305770b0c6391f62bcacfc4595217,-0x6c29386d92432588714123246152cc0f2156c327cb20ace062466261fb0dec96),(0x25889019762ddb9387b5c6b56060ad46abd6449f9401235ce242a969269e28a6,0x70a3072c12c3c553556e155e0d7871d6faf5d8cf91a166f6718778a6dfd9f2e),(0x1063925023c7cd4fbd3b4ca47f853cd7a9dc7a366f46fc56c048f501d4070555,0x147962dbfdd147167fd5219d31f9a8bf84a2beb86cb5e1a9d2c469c6b33b515c));
(true,(0x1d0ea47e4fc065f9b9d101ed4f2541ef2b5a378aee5ec2a0565ef85ab153cfbb,0x17586617ba9183df8796f8d097825ee0dd65cd0fa609e9fceec554a12c503018),(0x10781b041c718a94b7b445616ad3e418ffdb4e992bf479b49dc8a1551b2e43da,0x9910be26b38b7cb89017e545ce5eb070ad04d65e0d639594503c3688b02d30a),(0x116db7cc5f75acc6bdb9afec2468b8db05a975a94500133ac450b2772d001502,0x10ee147bc15441de7c6d4f144b4047734cca30165e8f545fce641764d9005593),(0x1d6e1bd72585e79be99580264c1585791ba0fb6e6a269783d3ea433a046006c9,-0x255c391877f9daac886a716354e52a7286746730f5547efa826ae8dfa419d4c),(0x62f6eff100eb704492977a81c4d1e0433257597db277733ea22b78eaabb9803,0x1c092368c435fd2223ed057b0932139667822baccb6b0a45e3d231df7dae853a),(-0x9809f48283e8f9ab86e1dd7bb6b82a8b3b9c5559670a8e509803e7241745708,0xa5418057c5242863607c01074ab68db5bb8a55fecbc47b857f54621885642b));
(true,(0x63473445ae14ba395304cd0c716bf525397aac93066ff3dbbdfed207bb76bdd,0x2e76387a428e33ce8871ff181415ecd849426c6531c476a9f7142ecefcd3c062),(0x29f9abe31e8d10018e9202d32c32db7e60fccb58c264ed733c62acdf1c8bf0af,0x1b36078612bd8e36eb3293dc49deeb9036a98d1eaaa813323280328abd130a9),(0x2f28937ada932ad3180a376956694b5b15158f1ef03a7593b135f293a72d2760,0x2525d897881572ceec16c9e05341192a44f944cfe700c3f8e3de670057a834b4),(-0x272e679427a1d37901bca34af6e254d71825fbab2591ef62f1bc1998a3c2f668,0x1246175a04f44781ef8fd1d5b8b8978fcac5aabb8c08cb2fdea43ebc6e0a48d2),(-0x2bd02aab00a22ee410c6b23a512cc8e97c38b1b5d085a6bea0cb49d8c854acf2,0xbea3207c17b20e2b328db21ec315435cef6a18cd110b0ee3ba1887879b38d51),(-0xad2971a50c5871ba40ed361b5380407420d12e14812c359332ce99c05a85af3,-0x177af30d11322737062651636dde67830a11143316d1dacb9a9136de5b07264c));
(false,(0x1f47f06b292674ed0cd2cc24b54f7a6f2c0015775260777bef01dcecb9047de7,0x205ade5d2f0adda9003248c9751b67603ad2f8db089f74536d1ae91ad2860225),(0x22167112bbc1a3edd7dc4d56a3ab4e9dd11be8888c7d8365dffd2f4ec0f9b94e,0x20447e72a774d9e0841e303b31299480a5a50f4b985c8ff292ebb1c9709e2ad5),(0xb15f82c3f97cb4011bd121495cfb0b311e9ec5b09fefb2bce94d5968e3fda6d,0x18c7b567416d87b05610022bf491232d0cc65208979f8c58ca73f73fe3c41d8d),(-0x1b914e35ec9ee24ccfc6bb670c8337f83e6dd8b4a5056415bf05c344a2b088e3,0x367a62b1263af646af9d2f6e2f6a779e037ec9bdb1d6902aaf99498642d2e32),(-0x169894ed7456711bff5cbe486240bb304e7de8dedfe279c44331b65d7db6e9e,0x29d446e147c14985cf5f79a0a8d09c0fabf89ff42bd3d3a2961f9791fa06c44a),(0x198927cf4dd7c93cdab8d5fc5624b4a274e4768af9a958ff2d4809b18970fe3a,-0xe7c2d98e70fae9e4d118331870cfde990c117acb8aa3a6981c7357e624da790));
(true,(0x58f4160ab08eee96c0607efe71802bb368de6ba98e16b19bcc04e062643dc0f,0x1b5e692169372fe69b7b7164d5666be07822d85ea897ea377112db6175bc189c),(0x2e446edf909fc751a375e1e94c693aa3027152b7db92618bd053010f0ba26ea9,0xde4963c736f64ee1cf557bcfe0c1500604f3203f2ad84581dda6c465c03004f),(0xf5bff57584e9a7efd16640c98144da3d136c6b59bf4dcadd810582183fd3646,0x12f80b3266fb973365fb1c78fdbfe2dfec9fb1915526435ce481d634d661ff05),(-0x20f8380ad3607fcc07a4dee082cdd04aab6f71c75145b376ac381c7a022e3935,-0x7624e2dfa1b163d79d39b609ee3394bab93c951474aaf7b2f013cd4a13a902ca),(-0xed713cdf12a9fa92587af4514504b9873f63f64f94159b163e6d51940ecf6ec,0x649e41a4aa3732601353ed17756f020e3e58766ad55d6df59634a6092703cb9),(-0xbca96b9f98b403eef0b34b2cffaf8a6138999de6625b4c1aee361b8cdea43d0,-0x4c7037aec3fd730993b93ffcf7d0baaeb1e13a0a02506866d56e1c40ea75274));
(true,(0x1bbb98e202e0dbfce15f2ed8f7fd28795e5e5fc1acfbf520ba780f0e89e1f8ae,0x292711e940c16dae08c11dfb4fd6d7a531d830f75eb40138c897e9accad547da),(0x2be2e440942f74c870322923ff8833a51764cf8e377e853284ea44e95bc4185b,0x117a7a64793c9c6ef4c03670136f6a5cf5cfd9351884d7330beb35eb936957a0),(0x2763d162d884d97101ef0fc57976a35566bd0e5c98d00e8645b286462699d770,0x138dbef20de3315b10e42dab4a64776f466989e85ff0d05bb5bfea5a75dd9bff),(-0x87668a861a4f75b1ea8cf7a2083238a3e228e5a619b438c7d02e42e66a2c71b4,-0x1fd5353e3cb38d84fcf47a1e60fb69963bd5eccb790f037bd82a917d28521cea),(-0x131a5f1045dbe7325e30e4733d49cf8400f4728bd506c9021ac84020cd61450b,0x2f2b0e97b1452e41a937f28370a1a56e3ed615a770388a13f0d715e67e359016),(0x469e66652ab4f008af019ac11e10246b235001deaad6b5e97a01683694a9c78,-0x7ad1f25ca4d48f549dc889df95dee052c426bf4429f0d3e6ad019b86f522a));
(true,(0x1a3a538efeb1f08b623755a3b47505ee1728521a8b750a6702f4dd5f8a89436b,0x1bc1e6824e64d3feb76d772485326619df921a20b9a19bbb12ac574bb5226935),(0x1ec8d7ae00d92a8b12ae24cb518dfc75d46bf0d8e0c358832bedadb08b4afe8e,0x213e8c8f2d89d066e965898a03155e04dca62e3ac9a1bacbfdef089370a0a198),(0x22da1322e821a256578ed0b62473e4679b31fc51032215c7a4c4f01d91132e4c,0x5b3f1a77613bf16890a7be04189ea702db4f6717b51259cff433cf8ba63d9d3),(-0x50322c65bf9cce91bbfad41b8671f33f22c5abd7b937962f9bb13250086d5177,-0x1cb910a6aaed947ab66af8675eb0a5004b689ea405542bb5512240e58744679a),(-0x1b4d5ad6a1874768c84dcc258ab11608b3ad878af3d17ba4652f2babc42805c,0x1e16a3f12b0d8ee3fcf81a6a66c85cc95761784d2ce4fd7517c7abc52b2247da),(0x1024f00decf4dc401badb1db2b38a8dcdfc1017250608757cd94622f84b6d4dd,-0x107a1e43a721750499573f4a0c65b14449f466db987601992e33e62a735c42f));
(true,(0x1aff3787904c5000646ef35c0c93a10bf7d47c99ecce02425d344335d4ddecfb,0x2c9353e8a2261bdd6696384c674f876da707d3536942e58138aa574dac43e3ce),(0x1526ccd6fddcbe76fe70f98be68b533009a279b243c09fe8100f6df77fa393ee,0xb60e434e0cdf234acef0d271aa0c834cf836b3591416e63a072a357dd6bd1d9),(0x151cfd9caa6f955c28a4377778a6aa90af1012f56d937fd09010399bed15ae9a,0x21ecb03385335f8fe0d5bcc1a8b5f2154a0f22ee94dd83b3bba9cafe38fdcb6e),(0x2624e08aeab54054c60d25c30dbc0cf1e1fae4d5792493662fdbb18c2f76c2d8,-0x385224617857fc042d7afc3e3fcc8ac7e18810299a8dc5b630e4f28c6f5478c2),(-0x19ffc03d932efac83d2cb0ba95c69ab4588ad9d0571b1ac21b096564be747423,0x31bc5b08dc00f99efd6592aa8f83a91330ef555eb8cecf8564fccb37355bb13d),(-0xec472c5aab8b588f2d34151580215de57bf50f9fbe3663664e6e9a440d04b88,0x151265a41eba9074c4b3c1a429c142485cb541e39c39a4e0b6b05a71d7be281c));
(false,(0x1a78cfe05ec8bf1927800827e4cc0cb8675a34c200833e53d9f41406805b574a,0xb75a74e19e4a63fedbc3bd73a01fd355191f7179db4feda4a3dbf0d5e2112e1),(0xe985cd47705c4dbb84a8064b0bbfaded6c3f6349b31547444da154174b78c1f,0xea8215746e44775593a9b12836305edd849f90467116553f53cb617f00405e2),(0x2491d0de57d0220d4477c9193800ce70a8f9120b1ab7b139dcf0cb1706df5c5c,0x1b71290d22bb934d53b4a3563d606ab3be4f5ec5f0e73bb46fbffbdc6814889b),(-0x1cc2aaf795d87035d81f01a8148ca688d8ff4afe7e450dfbcc39e69ef2e3545,0x86e71b41be2a2e448d469f445b163216c803b7b5e4401eb8e949cd1d5dacb14),(0xbc46d16fcd3a177b777520f8bdfdab5bcf3317df14719186d68ce5ecdd66a8f,0xc899c4288143a87bd58efadcb2fb512da9d230f069f41a420af902cb3df7531),(0x45ce63ca7eab255b86a17156f01dbc8b270e0b20c095526cd394e12137e046f,-0x3d9f96521dde8a126b8df7809905599b3326ae68d09abde715e88ecccdf1ac));
(true,(0x19ed5fedc74481e9d9ab1cd75b50659cddf9aead385e9da4f21ba00639d879a9,0x5faa35882e3f7092e6c45476d58d6cc7c3de81957cf5e68f8cde07e02c5801),(0x20015bdfde80625ceb3eb12cccaa17a9baf2cfd94bf12b2ef97fa15de5b6daa6,0x19ab91d0af16c5d9d8728cca79f879f63f7c222c60f689aba238dff28229a98e),(0x196d969c82c47ce0e19052e54cd6d8e43fd64fec1b3a63dfe11ead90f1030588,0x2759825f4bdd58da6049553489dd1b1119c17eacda276e2c3d8c2ac8bf3e635f),(0x26dfcb16c45cac40124a20216415df4a4e3513ee25bc0d8c7d41094d76d5659d,0x3727cbcf1cc7e3035dc9cfce92d11b0ccb0bb84dd98f00229504f80016afe86),(0xde36aabf065daba96f03dd0b78c44d5c48b9e0aa2f26f6d6e99ab410e2d21f4,0x668299fef61a9184be670437bbcc11cc2922e56b7f60831c421d62a1a82200),(-0x93e2f875868a60135291906468a28cb0ec111bc4ac1f7a370b7d19d0399c871,-0x609027b12ba1276a5387526ec16276bfb0e9f3f53cafcd4c5cbe6c97e749f0b));
(true,(0x266f8998004092b0ef22ed3a9c93453899923cadc40a549f833c22fb5d4880a1,0x21b7b941092159aceba64e2558f88e4cafb4bc0af6be0638572b9e0300bc39c2),(0xacdd05e2ebf06afef880689222180f5377e1b9f6a3985611c4a449f7efab715,0x5cba7b218d0ea51a5f96d596093bea9a7f53d3515aa2f6f59c6071c9084cbca),(0x2c13b3c45f31ee2c53063d85a3966a0c049e9c4da2d6d29a9d18d2eb7f1969aa,0x2cc2ebadef68783ed35d4e1651df2a74842b1e9f2466e34475e19d0ee618b239),(-0x2517dc432f4a2796232377f7fe68a7ff4aa71d4f8157f42203f7ebcdd4001a14,-0x3ec80bdb554f5a391ed439adf2c1a0e9e5629c09cdcbef1719c19ae9fa0d956),(0x708e11993e3fb3453cf93fdeba5169decd94517e0e1944acc9e8d592b45ed44,0x358faad5da6140b5de28cdbe2afcb4ae144b5bef43ad607fe43b39e7bda916f2),(0x2fdcec1a70b1160802888b52872d724092ba5e543e1d5b92e72b027cb421f51,0x1e8ed82b1e22f18ffaebb5684b4f34e3ae314891aa938a3e7d3ee77b5aaeb302));
(false,(0x916ab1a69f3c9f25e86924586cf7e83502c1c9abd69effde6bbf4dcc7f663fe,0x21cfeb026c3818a6e2eed694b0a11ed6cbc24008811ec8fc0070e1cd61b37f08),(0x81e23cf1b4cf8e4fc8ad94c568f07acbf9dfbfa21c3ae3993b8c5a16957b3f5,0xe2af9e82adc1a052372990bcd2beed230e27d7cb2c7c5488d97ddf51615118f),(0x2811fdf754f31bc2fca7401d66acf97c2829cb9313790af7bd96c8d43a127ed5,0x2065f7e7ebde0a2ad4c9ac4e1eb084b594d99dadfa644c31f338b85ecf7c81),(-0xb54208e3df71506dac6207d0f3eeb0d2002de14da5b0d58467b04753edde910,0xcef20d76fd039f251920d2d2047ab9de6e8b8e99c83a27d66b0eb31ba28ade2),(-0x15eb0f5c8ce72eacfd4340524c1b6dcddc2d2432e7d07a5f46b4adf196bc39b5,0xcb35d57f73ce8eda0f4bc23259a3a7fa7c880b2059518ee7fd597880374fc93),(0x65aba4bf30e8c759eacc97a5a6c110a2236ec147dc3500fefa47142d1ede2cf,0x4df2e0018415c694da894e6a80b7f1be7baa7b0ba1d56f9f4a20f570fa37b0));
(true,(0x2b670269301807cb89c27c86f443d5ab4e1917a764863f29f0a14b46a0d5cd5,0x2457a97745f5ca37161ad06a5cfdc790a1f81efa4c48160f5bc4d280233f0a8d),(0x2789a04e26d8986b87af053e9950a2561068dc0629d20e0cac9125f90ba495d1,0x2b698750844541d0d7eda6927c73adc6f95825560fb5f4c1b82982d92a1f08df),(0x1698e889070f0f2e3f01c2bca6a59ea81b0f2c27202d1a81abe457b96da34043,0x15bc5ba3138837d58b25867a759ac48ddb2b0681dcdbeaa418a288ada01e839a),(0xca935dda6c12444aa7fdf5d129174c6084f5e61730035e44b1e9a8fe9ade6f0,0x2df0a79f177815df166bfc6d28214b6b6c6f5802d535ae2a72abc61520f82b86),(-0x1b2427db6f02e3aa0f4994511c7a2e41c49cd02a5797bdabaf972df75e0e91fd,0x4130d095adcd6d8b78f71025bf32cba2b54acf5d359cb52a91cf9ee34e34eb3),(0x14338acccdae5ca2cf96e964b63130ed5447e358ef9021044132bf75acff4ab4,-0x193c5a3505d56bd72a2256d685db9548c1ff3d68b3bfba5ebb86ec6640fb4cf1));
(true,(0x277bb0d62d0305b296ffe6f56b7f7679fde012a4226fd1d0ae119f0d7a023460,0x7dae491a8c4cdc425abf6cd6705719bda77433f1d24cd766875820115308766),(0x2d58edab633ac9b8a786360c10bdaba69558a1b29c329fb98be7b4caea0c6a07,0x15dd2cf56a1689a042dad51bafdfc0c0e2927c0a3a275260d15beb01cbadc214),(0x2b8ec29db40f18c98c95bc4943574d5b0bfb940aa8e28b4caa9ded6ffbb3bca3,0x30cbc50ebacd9179bd29c8807a48ec25d8ec546827c6c82c76676378f786822),(0x31be3136449d1025596c595603cdf89debb937683768759c93d04d9797fb7858,-0xaa028b3b84183badceef1c4be997096bb7b6bd1bb38409d4cb3fdefbd779f3da),(0x1ef082ec5419d747a3d2e03003f50a49bfec3a3ae845c21a0ee6924957a18e35,0xcd165eec839ae3bb5628c2bd1f83011623a13392e49058ecefe8b2570eff0e2),(-0x83cec4f63183886e0e8981919d6ee5f0cc776acdcf3c9d1f6a26a325beb40b8,0x10a3670faa0220796355e895978aa413f5a437c80dc52e203a049d5d87707420));
(true,(0x184ae5e40a8578c960add0b5cd86aa45255a3d0dfaeefc498e173afca236626f,0x22b250f37f9114e5407a8f5f402efca13273231d087f0e79ec702fe8cba7aa33),(0x20bd44378ebec085dd58bde96e8583e3f541f6d533723c2350984a839074ea70,0x885c7a966e65f9c82b43ea7239e5ed18e4fce931a6711cc56dfd18b622f6a9b),(0x966b97a9ab20556f4eddd16c82f6cbed5ea07508621a43454e8b800466d1688,0x1214caaf02be59b1399edf1b0c778cf8c1d45266aabba82d2f984031f4ee5f7f),(-0x3a7d67b498c8d13c3a5acf28a8a798b3d187b0dcb93f3ba99d2c913d14e381c3,-0x396865d3e16fb09ce82a2cad71133e242286847be2c08eaed8491c8e23a95156),(-0xcaeadb5ef7f067e21e3e24802545436c745dd16b16dce21212efe4b664ece4a,0x22d5ccc2d37b10c98ce043749d4984378d0341af47d0851114f2670edc92de51),(-0x33c88854505632492474b31131b068eabc16d34f1a6102204efce7e376f8a4b,0xfbcba3ff778ad15517a5291db36f430d4f894900c07fc5d462fbd8d3c60393d));
(true,(0x29aafbe0a01fdfab371757f5a2fd067a5b545e90b2deb1030e41ae391a12fd17,0x11bcd3ecb9d6fbcf3aefd9cbdc85705d422b8e9666b874f27eee7de75dadc066),(0x16a6fd2fa6b6a986d4999a4fd81e43218eecab4444c4f1fbfa01b2e1b5934e2c,0xd01397125beef9ba7c87d979360365265d217bc34a7f3bbd38663f357b64736),(0x21e94a2f7de34455e0d83472e7a92ae1a99e46c1ab4a51d2be2b3eca075b4569,0xf9b4f4c73304361fdf243d8dc1155c710d64733184a9f922c5b60bd73449420),(-0x3b02de05ed6571b31df1a75d7bb7cd1e779740f7c35b2130e3525beee7dd647f,0x36f23ff861c1980b00b55e3bed5d40dc21a349d3488d89c5ebb776c912c261e),(0x1d606ed65c7c3126585413e6a6eecd15bce97d43083e6390a3aa55565b78bd17,0x1e8bc895928c31ba56f5304e86ad0152d659488211041dd38df84d7a8c2cb2d8),(0xa541011ae8f5811f1b8dfce4000c222476736f8ed7d44400900a63ca5a21b2b,-0x297f93200208b7f6d9ee746bf0dc0fd6038330f127cac080523fa4df992cec));
(true,(0x2d53773879bd558ff10d2cd02b7d5178de2ca82174c370e339894f2c706f7033,0x75ff0fe0ad52ee7f31a9cf96465b86784ee26726bf063e39b1d0a0023fa5ec6),(0x26d3d48297deb4d314ee52374a2afe2e238be2bfa296993aa65cbef17dcb81a8,0x1ce2e6441e004bcf1e088862ee9541d9a3b82c71e66ebd2e7c78b4b99247510c),(0x225d11f9c553ce026e9aa5c1d4018e01b9e5871c7031a06d1cdf0fc982e00c1a,0x1b4175fb12a604dcd491e13219a2e74bbbf1f3507cab55537d3cfd1b5249c0e),(0x25716201289d00a54613a325f1548de268c545137c3fdabb8cda93a814e6949e,0x30be588fe9953d9050e74e8f4660694cf740d71c9e23edf7ce270094d253aa4),(0x2954a16c87051a206f9336d99658c86230ac2feb12fed525fb28a407a47eab53,0xdd0aafd1d7c6b9fb57377556d956c98f8c4af90eaf109e6fb36d634e70b4734),(-0xcbae875e4b1add80fd3b838983f3e06b6bacc37cddb125edde72fcdedaf2c35,-0x115727262ef093056a4547f8638d9fa8333e7ae2c6c75bd59c04a6fb8815de88));
(false,(0x1deea6cd290c8aa540f7d3549e73aec7ffffbb541535e0606c9cfc3469e5fee7,0xfd3a4786f1a45018096c9193c4adfd390486c46d158e6d0534cdace0b4e7801),(0x1535c0b591f0548674777f6f62d64f8335c1980196af6652d1806d6a3f359b42,0x1fb305d9844ff50802091743a26913003da91649adef94cd14a428a582858d51),(0x254051cccbdfbae8447218ca85d047849c124fbd0d9071f96facffad725de9cb,0x303e1b4b78287fe34a3df1ef91cf0a1175ed7760804f41daf96fd01cfef3dcfd),(-0x814933bbe88ed3c64f41555ac9b3060ffb2b6d4274becb813e537f79bd7b965,-0x6e859d233cbfb387f949dcda746667d4993d4842ac17ea151f11071ef30a9c2),(0xd568b5deefd0095d8fb18ebc9582a78411f2109221dcc158e82ea0a7e40d31f,0x139432c6370a3f1be532ce225491ba0a7b582343045a3b148101838cdb727959),(0xbd12d99d618788c4065245c1a6d6f9438b5213bb7618bd2bb7a7672e7705146,0x4059d08332f8cfce6b77e559c8aab37a1f421cbef93642150ca44f287a69e28));
(true,(0x21e531c1376a0b535e4bc64e9e9d117812db960822914b760845bd0ade8a43b3,0x26b8fd6c32d055b1fb5693d1face5c1d13b8008c0ef90a865257137cce8460d8),(0x143eda13f474f285b0c63222b8dbf56eb23d28a968f5f445c161a9e5c049556,0x17d0867feffdd83725809849ca65cc4c0c2d16facc7829d769ede83c0b4940c1),(0xf2c776df82772db6c2e8bb81daaf01b39eb8bb073944b5820a78fc4e50b26fd,0x2533fa6871bf2024bc5ec94281f6cc460407c690e0d8e4406f9b41c3f78830c),(0x9621e304bd436f0c8fd35148ec399ee9c86adb740c132dd48396b7c73f8ed6f,0x2bd5dfeeb482499a8b7840a8a18d4f5f70be5aa964453bbe89b607d0a81a055e),(-0x73e76c48e6bc2be9aafb6a1e79113c252ab9696ec25e4b8fc06ba8b1ab36a07,0x363ecbb2b46caf9f2857374944734fa1c4a5497ed589e445607800b362ba8a6b),(0x7a91d4c98810197b941c4fabff02457bdf13008809d7819608348aebf6b4264,0x157b736873d1b197f542bcb3c051f4e7a0df3ff6ee9444e88dbf2e5d80a91181));
(false,(0xbfe1caefeca91d5d5616b0590c623aee3d40bb4905d34ce6690ab5ca283114,0x20f1b6d7a8732ac479d4f938938653bd5fa47a23a4287ba8bf8081c9333849eb),(0x25e4eeb212bfb196fd245c104b760269f1cf12a9b197b4821789e7a5479e0f92,0x321a2988c3e61848b2590dabe32a2cacd499b962a1c34f7dbbc8c5b2b06dc40),(0x1271cad7b55cc45713384fb7fab2d35e4b308c724bd839bebb5736a32bb1b435,0x2da790228ee886b73edded2ae04579abd5819d7de5a98f079ad047d3d72ba125),(-0xd5809da39cb8639ea2321196784ad7e245c6705e743cd914f51c3535f557d4,0xf81b10a3bd4b1ffa8a7254233db762d1a73b136f6da421f3c17bc6a2ff8f48e),(-0x166a88b05b196bab62cce18bc5319fa809b0dc3773e4ec24911a082fa8d97712,0x105424aa9a4a92033429f4c314b2516788691262f361d067d1ae242ca1cdbe3),(-0xea5e58ed646f65bd37453e8387cede036d5d1a62004cb8db74421b97dc528cb,-0x189daab2c1b890def6a6f3627e7be0356dbcce46ab312b59cd6bc7a76d76b8c7));
(true,(0x18b3df920ece0647eb8c37c0b6dd9d1ac6c068a2c52645e9d83019ff7931be7e,0x26fd832fd06392de24370d660ff1102719ce14c30d43be4f7718346229af967a),(0x2c8486ac2214f640fdb2df56434ea2aabe611f022c203327801f07f4fd8590e4,0x591323ca5bcf5185931bd111f427b1624c53d9f2fa7a25a904484e1ac42ad66),(0x5a48f3db753b5f2f26bd22b204489a19c943d2cecb0d8179b381a4413fc1435,0x2ba5bfda495b6cd4f8e260c33bc705f46ce1c91e4b43b4c877af95227ff01a60),(-0x8f27194b58089bc9c905a1d2209a25956fc6a9041e46b4cd177c2ac8b86d59fc,0x3d9eca7cd22d88a16967a781157886e6d3fa77ec862d9cf6168fc7af1440f890),(-0x12ce2776e2bb3b60678f80da550f03eef838652d052db6b9a75b913866abf698,0x27ce8c7a2e128ae077e4fcf1da298c2e1f5f52efec51283756af5348aec22d3e),(-0x16b22beeac854134335516a32641b4c9da409d8c589778fd4a98553d55fbd06,-0x6947c0a75dc3f59a78d37784da8b5364b221811d5c886eec1e2ca61a9ed9acb));
(false,(0x1e221a132e6b8e627a34a32c75201a9fe6ee07efdb21fd7e6e5f5629449278ac,0x2f09b627e0cea4a499357d5e607e40ec1e23996ccb574b202832aa4c5799251f),(0x29ea82cad4d9db506b34cd35930b17968424b450453bc97fb3f6d385e9f22d2d,0x16b8abb4036d66d2ddd8eb293842539bd15c08b571e849ad2f11e4778927b57),(0x28ab9ba22868c3938ae3a73475eb740756b34c8d71d6b498bbf300f13595b875,0x6161d9b35691eafefa2877986e2fb1e7109dc88b831091d4a3ab37121a18624),(-0x20345f816018a43aa6cc608c85e17c42751c3858423cb952de7bf5dafb29d08b,-0x77e2c7f4c2fa296aaac30ad08d16bd482131a74d9bfa320174b93dbb831464c),(-0x1af54d6d066a5b4b7fadc860184dabbe3f5a484dfdb48e8da21e08560e1466d9,0x3a948f512933e5123a8f21420d142c43fcf71829fdf03ce012f76e24233ca90f),(-0x2693ab68bc30204416153b9de744309dbf25c047b5cf19c93a8f12db98742c1,0x51c772cf11d71decd75d9baa4926357d9ed1d4a5a4b5d5fa251a2f2ca228aff));
(true,(0x26ecc4ade27e69053d9c74815ee22eb05af20425c916bcf696c44c4634bb908f,0x2fb8d63f42f228383f5263e6c7f9ad744ed449f27f8257440527d8834f1ee777),(0xb133e4a37179df0907d6d97dafe7f964440d7c51f02cfa6220d3286b9b2c6a2,0x2a9aaddd78abc474afc4460830354aabba5fd53ef728d31b3dd63bb45021c474),(0x232eb22f850ee4e526b3e3aee270b2b6340bec77214d17a1f3e2e7cc365a15a3,0x126150d3df1065fde0a072a6571c8b3e773bfd684fe52b9a3f26cff434351da3),(-0x375f3a78353b0918ff5a5fe5fa6fcf5e5cf49a8a9fbc8879760b9fdb4de88ce6,0x52a03d0b46bbc1a03c47f9ee68457b9892e68b3729ec98e8286c0791fb01cce4),(-0xfc064216ed4deb5f4155a3c22b7c16057a585e91d4dfdc58efe12cc37e3c834,0x4cc5afe1734da2b4a933bed572ec1d4d416128d85e35783d3eb1aeaca8230db0),(0x416bea2cd79575213bf5ed53ea52e99052bd0442dd1f808c8f8e863b19070ab8,-0x2b6959470d18e968e8ef327a90ccd4266464bc6c233aff7796a0db8ab080c3b));
(false,(0x1b3f8a9fc2651114cfcd246f2f3ec625cbdb2a4b778c89e98eacfd71c78745b0,0x14f5a384ac7bd658a0bc5dc76219f0da0d5e1c089c3ef833416d10d763b4f379),(0x1d1e12c2394c711e0fe0986c99b60cf389b006b7f06fcdbbeed471db9a3d9c24,0x172c2f4cf50fd34882fadedc82210a4bd3bc99fcc7f0be8cfd39504cb1d45f0e),(0x161267677bf8ccd182390b85962f9c9498da399614cb7dd0fb61133bd3129fd9,0x2c9ad18b023e66e934ef3af21ffc63b27c3edb4cd17d3d3d122a998e8a69372c),(0xea9c0c518dfb27fb1a42b797a66029144d2edb0f09a8bb02acc28ad68ca667d,-0x3ffd87d4768132dfdd65f88ec7de13cb34d11b79fba67bb233f364eb8a4f7b3),(0x643c74ed6192d1bcabb98c96fb75c8979c4ca43461040aadc36e0bd41c68d04,0x179a82ae9c809d59efb4700e0db206e7ce76c4f1672deb21f904eb62def10304),(-0x12934e2b5c2063df86876132b7b378448cda4618d878932e8002567cffd8785e,0x3207f95335ae01c0ce983a24c4503d0683165d34513c6b8b65702983f954da9));
(true,(0x1174e4b7d0e442828ea83ce81ba685ec0fe5f2169716095e1b6bc30dd2623307,0x1391629f789ca98ec78c41f13aa2b8d1612fb70ef2f0c068d655c01b400c09dd),(0x2880be4ba3d29378a01ebff3857dd40d3ad6880c8e664c8ab24f0e638c8f5b7e,0x27dc894e99ddbe20c489d4f8d39db01ecc4c8f7805e6ab8769da7d57b807762c),(0x173a819e880f28e617ce63fbf1e8ebe17451a678ed69f41c304bcdb42c18bd4a,0x424599e3be4ccf1613d3e91c8177527f34bf8a122ae477f294c18a4a6bb8900),(-0x276b94a2ac7e7f2821bd927c181e744046d278456eb6ace093b950826a446812,-0x21a07ca3f28258192b2bd014d3f3504cc6ce26bd348ea7ff5c2bda45e36bc852),(-0x19d87974a1dedbb44f918d8d261bb524682d2455b3eeeb5d176fa10b62bd1b2,0xe1e1e8ba1b43cf244a8c6d712bf2552033c8a43268d3aa953c817132573ecc2),(0x2a42988ed59a34def3b24ab77d9b4623fed9e18eed5fac9db09e3974645b3cb,-0xa9fc60c89ddfd658ed98bc6c5428064ca189354f2418a8e648adbdc2e0b2bd0));
(false,(0x2e68bcb3e9adc73850d9a0fdf027d717c706ee35435cb3100634289548968a74,0xbfd483430f77d74afae15f9eb420c54dd14720efdbd24d9e89f566343e0f45f),(0x1f1522ebcedfe70fa2fc7b3efbe5abf06e18aceacc64d767619dda5fec1ea8a1,0x7f75cf9ed4d2d3737467a1ab31c10bff5d11061233f1ab8f08aaa17126b3fc0),(0x262a722c19b58f76cdd47ee8e40d28d0d4665606fd913dc4d8cf8c90979f75e,0x1bf9cbd2fda988f30f8d2e8285ccf68e973c9142588f15be7677142e0544347d),(-0xc478a1f6249b0c7ce999f8f53cf29719468b9682d43f10c5546540fa8079952,-0x11ce6a2cf892f13aeba4bb005a5f8e551ae61e551f6d970c765668b5d601ab3e),(0x2989878ea3d48cb5dac02c116253146097abd255ca544a4b494ff37b697f7525,0x16ff0e98422c5b951a10d4b4062f3bd9d1241aaff66ae80994b411c0ae506846),(0x121d35bbe047b1ceb893221bed92d155adad549a814bc7b6b387e2b8d040158,0x20ec1fa3d4373b4d487b83d81f84d7308dd9697ca1b0db7471af070326303fda));
(true,(0x7bc9447e9e401c2abc3af9de8d14e574fe2c5d7487caeddd8b94a1f34e0167b,0x26581010bfaf3ace0c4af2a9b2d02adfcd5b4f414cb8285b953ed6c532ab84fa),(0x2f1c37454dae5bcdbabb4d0ae0263eb57be23feaf0b96dafb47c0053e3da0401,0xc5e058fd19eb8fd4108e6df2099cad22855176af03e460483dde91388fbedd8),(0x2a12372a5a6f1770c05642400f8d5085711b918cbb5f2a54fbff251d2a6f1683,0x22adffe3e303ed79771effdc5d66cd4100e54886422ccf59c8e3e511d025eed7),(-0x6387f378867c8ea6cf00fbeb8dfe37dad411af51c41ad3f3681cf76ec2a7e155,-0x11f9b86fe1fd023d40258719f8a68c2846b80319b255f60ec74a00a00d2d77e6),(-0x1d2542f20a68d1636aa370003814268940a7f7894283db7faf94953293702242,0xc42af1e251c8a3978fff8ed216056ecbae6cde5c3e9c4299f24361d134377fc),(0xecbedefddf4548d10d72d64cc45c11c0a64a8c369c2601f33ce1d63c1a3999,-0xd6743033b538d4ea516f3227bab0ecc89f1ec1872f0f3b9aac5ca7ae5b82484));
(true,(0x1f16475f3ad69bf37fd972418d2390c062ba682d478eaf1885df989e5568f0ae,0x1da97b9f5a19d629c5440492821c2b6e1d20624fb0322a86e519e6e97c096097),(0x23e741fce90e62bd5db8390218f040dfbfbe26640c2047a79574c51fe774844c,0x2d2ed79aa17bd425c3e86f90365dcda686daf3e712269d19af8b9691b1d6259b),(0x1f865a19e0c55f6effe634c980f2216df36f3309898415194ef81f21c82a2072,0x8347cffa9959da7b05c3cd4bbf02446ad01192c832bbb2d5b09fd1d2de15bb2),(-0x749114e08877365a3f300567bb8c098affdc7f2d774e4a53f58580253fd97127,0x17e4c9e612bc646f63d4cc18d7a9ff00aea7e6c980da1954f2e4dec1de5ea152),(0x1c9f313056933a597c78dc41e6c7e4336b45b21106946178d6bafe4f9ede673,0x261c24fee1aab2093baac41ef4e975633dc894ea91afac1c115a4913d712ecbf),(0x1b505b4514d77e565f5a9a361da6c2f11d52108f6ca79c98dbd2788a5e8dd83a,-0xe3629e8fb445b153f1783baf371ec9dd9181cb4613d0a5952ecfa3432d43030));
(true,(0x95daadc415b6fcf2959c43c011d7fb380d9d6bd39da5da0260071c051c373ab,0x20061c4e2f3bdf8f4b122de3ac2c1ee42371c538e8adf8ebc7395fcc49a4d073),(0x1a9389617cd5ba3421bb891026d2bd901c8c408dc644baaecc03240783822ee3,0x13718f5aff8670dea29e1d56ecc26e1c084dc5af4f64949f7569278028eb5017),(0x15d466536ba1f5753d77e570cf822a18311e6346fcfdec08192fdad04c6ae469,0xd8b8be875eed9a45f47e8b4b620c306dddcd4f32e78b57bca13b65cd2334c3f),(0x2ffd9aa1334329584a865fa2020c608840ffd9995ac8137f347c3e5bfc72bd6d,-0x9c3c5bda90f163f2a46a7080ddb8562ceb133fe5b886cb1227d8bf9b589e2f20),(-0x13612599c0a12cea55caa5b0f29c8d6f1d218266e5ab9cdd1ca6d1cecda2bb3d,0xc655ed439414b023cb3672ff9be3b94d1075243d3c362c31c29de4886274383),(-0xf3a69121219a1e1c14d14ab070bed86893b26c4643105146d08b5d5925042dc,0xb27694511107bd8c77630c11b6c7b755cd121cb8e6f9a9902081d27e8655e6a));
(true,(0xa9ec115b417462e63100e60764d23871409725609bdb3e52039d995ff1aa53a,0x2d5a2ca43261abd3c7625c28ee629456a90457e0c0131411a6d5ff0dc354ba9c),(0x108e5d89ea050c972a14fdedd024acd475b6d7a0cf3eb4040a39ef0abba4f1ef,0x675c014b05677c073232fb7b942c3b3a92a50accac630a79009784fe9ca648b),(0x2914337baa683a453f00386b0f8781a308bd79744d22c59c2e8b7b999598afa3,0x29f3b9e5cf33e26d6cfa0d3e13a59fbe67dcb190bb8d7c4609826bfa5ca5062f),(-0x24280ae255830e643712a6d3cfc2bfd960be9718bf0864cd23c83136a9ea6644,-0x113503a6b624cb87c405cee33f3aed7aa39f713adcd4e7ffc807bdd577c71656),(-0x282c41bc893ead3e354bfbd70989b030926a4233a027dd3e8efb95778ce4f1d7,0x13e7f7fb401ac05808540cf7bcfe1cdfde248ede6b921d68a448f92ed6bccdd1),(-0x9f81448aac0054e131d71bb656d0561d22bf0bdc648c78049f116cfcef5674c,0xc3d7ef23d5830f4ea8e377fdd735515852fb5ec962eaa741c07c91c8ada0136));
(true,(0xabfef978c6d62f8c32c0c12dbfe5c4209d2ea37c20fd20ca9468c602a41caba,0x1d3a6d9dce3821af4dab047505da78d015e2e35ea994d2cc7cecc0f5a2b1e4fd),(0x2b220f7ff4b558b481a4ed51dbd839a1fd227a1685600bc8eefe3ca1d36d0eb5,0x1488e3ee05c0480a4de88a456f902eea0f8a15d8c48baaa938a9ffc8081ae97f),(0x123831b718679123e6d74149975f06b093efb00315263ee76eb94abf09946ac7,0xb60ee6dbec57bc02bb618e7aed5769476085eb25083c6df8f6c307abb5ecb9e),(-0x2ed524dd38ee2bac9fbdef814da121d6f601f9fdedddc3c13ce069dc998a07ee,0x370014164435aec8805db9696e0aa3c5664b3871a05b97c774322000cc2d0b44),(-0xf4401a0e40fb997ec6a57712c780377aa82ea27eabe670d3cb2caa560b52ac8,0xcfc4a4a0a458f4e5421f20b4e2decbd38acb3ca91fd6b38b08e211ca5a7d1f9),(0x298e4b7d302c4a1edaa796ebc1dadcee2c3c7e53bfc3e979a02cc32b1508932,-0x132dc5daf89295b02c972bcca1aca0c76df0c58109bec46b5463e60090cda4a5));
(false,(0x2eff40f95d6021c52eab36b681860ced7c36d30b532ed4133eb333fba7900e2e,0x2b602271d8f3466d4eb8d49b7927bba54c7eb6b2146ea147a33aefe588c0f5d1),(0x134bbaf2225e3944c1a440426e7578783475c01cd594c5bb392b075ecc398604,0x20b5de186d65ba7bbf882fde81790db765c4dba5450dd546be21609b72447bbd),(0x9c9ccbd4c54f038cf9fbffcf3da7088dfdd829696dc3f1da0efc2628b083495,0x146c1e73a2f5e3556ccc4d95155b866847c14414589e20403ce9b2fbc74c073a),(-0x171474befdcc09ce29be0dcbe8de913d35652a05cc13d5b89a551d2b864c974a,-0xc44eaa6d0f229bfc01a32ba362681bbecda5ee22557e1012df6aad89bde17ad),(0x6c3698141b68debd821440e484098b82b3625337ed987e9df8a548e5346da9b,0x5440301faf8876d72445ae8baee845603d89f4a090352031eb890fb5214342f2),(0x2210526217964e14b0913dd0eb29b812cb70e36f38ee40c24bfe93622ec22670,0x98a9f4a5c060a5f117e062421fee620695b559f4c53c945b9789ec763a452d3));
(true,(0x263cf571e6be1d85ea990e93023df6c4110e36a96beb79cde839ef86ff515fe4,0xfa95d7946cc338b6b970ad5aaf7f681dd4193e66c97a8a7c95c477215f6c881),(0x2119c199a9c0454f220ba033981da8bf7866d3154e97b21a477d3a2f5907b253,0x27e216653af73ba06a98c7802b84b2604c8f7ef95f8a344eeec2d8b7c12047f8),(0x1c04aace73c5e20ed794818283582cb6120a58963e462eb946c25800782a3f9,0x2f20e0080c91bd714ab01c89450f7258e561504e9c0677c2dab6845c2105da1c),(0x2d7fe3e971978cf44151cfc54e0539a6518a72a647fa4da79e0bae8d722b3529,-0x27a5cd857c54234a350bd52571544b7b16c6389b660cb5002fdc7008d6a2d0d2),(0x19256af84c468778f2e603a8e789c0959f0e74ed70e552f5ff5eda6643f978ac,0x18c0380206f580c7c3448988d5b7b9c0245910952c111ce041bee09e6851cbfa),(-0x8963b1f6c328c32119485ff6f8fb6edb4470b45b6e9cf73ea205a3b2a8d2bd9,-0xa22b2058ea2beb65ede7d12c4a16342fb5eacc744d0c65d057c4a9580bdc847));
(false,(0x1a0c666f6f02f22a41e06bef19be4d01e0dda50dea54f19a956b46ebd293c88f,0x5456beb05c0d090fecdea792621bd3b4b51a38a50a1f4122daa836007f901ea),(0x1b89c266684956670cded64fb73f09a38d0e945d92d24315cc9bb42ca417678c,0xf5dd42f245c3738c8525cdfa9e64707ce722da272c4e3ad49b6227cb85bcb26),(0x12b94e4994993240312739471b09079c27bc4c171f2b6c5b85fed6b47708a293,0x115290220963eed547dea581a9d210ac4b61cede1f1e24788d650600880b7e91),(-0x3561b06009fbe1f9f8ba144d685d6132eaa10738842fe3498be3e505ba2fab9,-0x8b3d545e695184e9d90555b598f65e55eac9ba5c7d968cbeb7ec3706f4849b3),(0xd727d7504686a5c5e985749bf821b034fc00113c8287bdcc2689366dd6545c7,0x5acbcf9703a934d3318246bf5b0ebd9ad7a79fc3eabf9ee3c9334c2572c8c14),(0x52db7b73746b894ab305eae4d2a82f01a5ff486b8bacc078b4bd898367de8f,0xdcd81f7d110069e47f6264342a2ef3238718693a10057975b3c73b83938e9c1));
(true,(0x2d8c6b1e4078fbd3709092f5d7c7c88d905037040c57b704346bf95dad51e110,0x15b6be6443fb8e4f012b91df52c1c04fce027a75a93adde3659e7c7ec3ba2bb7),(0x2809bf7823ef8d383cebafb5587e152f1aed287a2ced7e495f73c47ad8e94a0e,0x1dba834c03b5344ba382cf87857d7190c3d387edb9d8374bbfe4bd844c883231),(0x1739186de7c244b669573e15e05494a60e1f58578cc405211d4cffe091545552,0x27c0530aecabaaee5444ab402231783fe7e610c9d1190feffe35ca384d77227),(-0xcac27bec38f9e49525b23f843a4adc016a6ef1814ad8ad5722b80703ce2d1be,-0x30e080038422c0fecfe620dc3eb6f943ff7d07b0475eb0fb962735119022b6a),(0x21210a518cd2c7ada0803d6eee16bd453872418cc84e90e8aedd91d8046d9d2f,0x28e0448a53f8a8f44c547f46e64df2494856b42a6fb1551bc87b7cf70dbf4605),(-0x552357a0d65595e865efea781606faf846d4aa3a4148c92459d711ce7129298,-0x1320852037808b3aceaac1b4f8d6228bbe70a0f803e1336f3eb3521a9280dafa));
(false,(0x1c2ab28ba2fbd488adb6ada4dfdb25764a27699b4ef4960d2f30061f53420c7f,0x1b9c4ebc8808790d2a8679b5dcfccb124667878c15262762395d1e594fd69d30),(0x2e09bedc8441808e5edb7044c220fa509a0901761dc9d7fc1d6b5684d0be3d5b,0x1050df582b94e8d7c52fceb5924af4b17b77c380ee3618fe320d21f545f48eaa),(0x30199a5bea9107d238c906e3fda72ca7a939feeac9c77c1ef81c203ca7e35255,0x171e5b0ef143cf586f3c88ddd6b2675786fc87d18a30323eb9e79c7483647701),(-0x6f3f25377f8f685eb2d7ee0a3b902a2ab8d97012581adacad45e0e25ecaee61,-0xb93b0a4f2dbe87f724da718bbdf068a0a71ad26dbbd01fb261c1afef7da9e63),(0xa41f11f10131c0de46880a9c2d77b0a781cf9179729806e20e8e2801974c7d,0x20244ff47e63bd494d0f0321c87813f7baac7d0cfa2213f1b382b8a00c942365),(-0xb25253fd9a8afd2b539337864e3a521ae034062a411408b13300dcf3be96886,0x46230bed14b9f31b726d0c5acc6c50225c4f714a039f5ec77639728bfc37e17));
(true,(0x7c11da0b2abe73af3cbf2be28e66bf3df3755fac628020dd476219f9988bbc4,0x222ac697ba8423fe2cf52969ae4428f2651c88c4dee2f5ec99d619c89526eb3b),(0x1af727847a69ed99c11e88e124bbbccff5a140f0b1df5f08ae8d71c6e10a982a,0x29187a5420c720da19eca772ee0f9873aa8976e160e7f644ba95735c21e77071),(0x2b19cd79fb2ccc4b44580706ce271aa8e2447eb23dbbf80ad24bddd16be46cfd,0x205d5b2d652fd660f5c40dc56e2a768049887d8f464c1b9683572fdb3853e0b1),(-0x841fa7d6f61c2c03821d39ca249abb45154aa482d401f5944be8414a79d16c6b,-0x11cd7a97b4969efb4b11282c10f27d9e339504673899307b6461c2241f6b8632),(-0x16e192873f1a66002650ad92d6efcdef45603f2cfd991c1d9a5f8ff1479688cf,0xaf32f8e9abd671cb617030ffd150a0154b5074d345126ab822326762c095255),(0x148d4cebd922b6ab02d1bedad1a8b4304c2d25da9c616e9d19161836e79c97f9,0x97eda1bb6d8603fdda58097af99ae3be120c02b7c1de555881bfff3f34cec5b));
(false,(0x18b65f3d2f6ece2cad66d8c04e3e29f144d11363479e5b8af507bce2c14df769,0x82a845aa168ee75ae5cd7283697b7d484212ca748ce301ac63c8cd377552765),(0x2541dde279599e57819381a1bd0bb005d3f6438eed8a39d586a3f7eb4859ee63,0x145d941d2812712dd1b9fd5da6b3b1fcb97d7182ba09858ea094f179e04e3579),(0x1f55542967d1db545ac37686c38cba755906eb032073382a34440502ed876dcf,0x1714b34b0ef71cac9a071743a4e23464b3d4c5482989b1a0b804b0bc7c5dd74d),(0x11c086d02dcc8866f123f063df2acafb4430269bca055a07a8c765393f7cc5f,-0x86f5db6d6f84af527619630c5837f20fb7c2b2c7d699aa79375f7a99df0706e),(0xb3deef78094de677d0b0299faa27dbd77be4b17401bf3815b1955dc888d5b52,0x857240185082bf6c3f568dd157599a0bcf1aaf159c198552364a39619a4af62),(-0x8c102dfecb8f2d9aad08cf1848e2488eb641059d342d4e77b5bf7e1bb9f3353,0x8d97bdd468120a98ef700b5ca1bcbd14d2f8d03f1a4857c8e33b8a3c1c7dc5b));
(true,(0x91ac6ec75e228309650fd04e1be31a7581f8a66fc9d07b601bf97fc435d7c06,0x142bbe1076c1844e50b7cb2c78973cfb918e31d20b6e1d255dfc0d4acdd9909c),(0xc1bf24b6f1c85d30c61da23fd06bf2e7a894794dc29b92c2fa801e15d6a35d6,0x1805e4fce868d0ea423805c9372dca42c4cb1868920e61a9318efac50d85347b),(0x29758235c08d9afe46558bb5ba3cfa3faf8cea40bde4f92ee068ee2739a724c4,0x200e666f637be3959bb84ac5beb4b2db624525e4133f98e74a857beeab740e3c),(-0x43caf7b4dc0523d69d866ff9b768054d178ccc5c8a0c89e1fc5343388c800d34,-0x3b458da46883933bc4170a1170f717fb896389b9950dfe85ff075379ef9bfd32),(-0x6b1d9eac5edda7eb1d3f0fd7509db9cf5b6d80b06f5ac0d00359c947d527638,0x7970c183483fc765bcaaafb06aedada87fb8ff5649a0c5fce233c77d5babe85),(0x64187d10325a8314aba9ed7d1bcd4dbcd8216919c348bf52aef5beaec43ebf5,0x9cb514cc163ed1fa13da52d1bd8d4887c90840b4226ef177191800951d5ce71));
(false,(0x1e9e0a018d0d99459c004fcc17249a6a5d9c2a6bce5e1c0f22a0e13037325c93,0x12e1f3e4ca4edfe97112b8170c804710226e5cf263330745ff933955813f733b),(0x2661225933c3fdf7856e3cab1727b1699f5b7c9ce7f8df485032875156c80322,0x2444cc2bbcfbde45dd967ecf2b26af34b8565c9f24591c006ff941ce6923d61a),(0x13897127c5e224acc1141864df4373d47e68c2bc243ecd701294140cd2057f3b,0x1d28d785f9ba4ed2e713b8545bf2674bd75ff8483f2c98e65d9cf3588189edc0),(0x6ed499f96a1a5f0731103f4ecda5c086f81d6cf2d5c680b34c2778830a9657e,0x59c9636c797e5871af51a5c7d5d4b6330371c5b7b0f6cf76bd9a0f89a9a82f5),(0xc00e0d7a3b3b38fd666d8f48f483c6e5e8f06454dd8c8e2743ab7a00b92053d,0x17e4d9c59003bbab953cf6625e4d5586b3305a29b828ff0af446c4e3437ec5bd),(-0xbd7c14d025a306a3116ab563e302b21139ee671a68737c1de2b20e80aea4d12,-0x11ffa145d8e8bb96c59db09120d564ac10bd611f06e2aae724d05b0e3aecd94b));
(true,(0x31e129b528d35e2b9f0dee0a45df478d16244b3a7a67998c128cb91bef369a2,0x2a1fc02579a62a2cb3a28192e8d6600bb7c91517647f887af42711bad4d7ad9f),(0x168a57db143cd9574aa48229e031d8cd8a51e9ccc9e1b154a4632d29c32d5316,0x135327b01735f027b47482e23dbaadb8344f5af666fec3e0f92474c1484545da),(0x285bd8074cd12c3109f6780f91fa731af57bdbdf86a2b125288c070c9c2f2f7b,0x2471cb5bdef28344f131c07e0f17f943f29622099ecbdd467c43c88f5a4d1960),(-0x3a04192e8e029e7f23d7681a37a7724308924960e0d6bf8fb0c1ca25c6f7b4ec,-0x86d1693161e2141cf5c0ac09db1c87b324a7f029677b59bcad2dcf17d9defb22),(-0x24779b4f898adaf68e897dc66e0959e6a27a2a1ff44fc95c14877589e592bb31,0x56d68e3feb18681644405633f42259931bfcf5bbaf4767a0c47e1c6cff79c62),(-0xdba9b911e6a537fc9d194ad00753b30acaffd2d8481aef1e9b86d9f85dded32,0xee10b5a5888746676bc57cf75aa2221616f01781093abac6ef9484ecb05fe8c));
(true,(0xff4983d5a697cb614e4e571375814072cf3175a3a70dfe69420c6aae95629cb,0x17053627214868f2d0369078a850806f2331c3aaedf6a3c3723400bb30e6cbea),(0x6ce7a3105cdcb2f526bc9e92c8d6bf552fd4b9c4617aef3640d987ab2eb9364,0x8b4518ac9e7b430ea446f18d64b17bbb08b125da8bbb94690e55df064bb035f),(0x10985c1318eabebfc9d8b96cf7c667281300fd4e996f8e8c55186050f70efa7a,0x193c11f09700fd5722969aada681822545e701f6b17e7b332262e55e77a9d353),(-0x1067e6cb680f363014bc2ad40fb3c692bda3adda04d2b13251189fd6aee84c62,0x86c32c710ee3721b4f9139e5c71d289fa3f8311a92b11b5a9e8b1bbbbb91fac),(-0x5b0b2d65a7d6c952ed76ab0182fba2ca8dfdeba82b421244a8251e89787892d,0xf2e253df5cf3ed04155516f0c94eb196446a1d3a8569090aa3c49d15422662f),(0x22abe5f8ee7e31a9a232b0a80ab1e80dac41006b3cee9c10f5989390ddc2a5,0xafc862d5b7f248aabae43be586beb3aa99ed489ba0b2993bdc19636870a9c26));
(false,(0x2c05bdb24d86191a36706275e19b6692c3c11e291b7e08d934191740b51b4dee,0x2740201fd2914ca9c899d5042aa5d369850a308f41a111cacd747227441c38ce),(0x5f0fe80538103f30407ac6fadbd60fbedd96cbcf27e09468efc424ffb75825d,0x1aa1684458f4e35a906aeea4a2ff18d09f4f99a86fba168027f3d6167e08db49),(0x1babcd93f56c9f5b62d66a8e22feba7fbf4fa6ecc9def8679d9f008893b69044,0x885eb9a33e1e7c36ab567b5970c4c7bd6017117b01b19f16180c7ea3ade6c9a),(0x1f99bb46cd8fd5972f98254921221a2decc4eca811db69b1d16d7ff099f745c,0x1d477c4ec647ba5f425f8cf2995aa573048d800ec3a2248e4f5b36f491ad34c0),(0x83629aabc850c868868df68a6ffe844008b18415c1e3a979be9e0672b05739e,0x4769b831d8161f50706a3fd4c14f35ff3db5a8f969a4f3458f182ce3951fb072),(0xf53af0fca21cc43c3b066bbd9e6be353385fcab7b2ff51837aaa3bab6fb5c70,-0xf9b160c92c3e89eeff35daac7303a20a80beb24470fad128488dfa0728ebef1));
(true,(0x26c21ef1c232e5ec01bcdca731cda6cfadda77428719793dd9ccc7b6fd5aed64,0xbe4bd4ae46a39994cf8d0ed9403fcbfc9b10b5e07d5adc2c6a657ee8a0db508),(0x1a9fc0ed15c02e000e7a71a8aa63103e3a8445b1c7db7dbf4679595fb7021241,0x9472eea9d9e4ac2abcf1fe9761f569a494ac678bacc62c8aaf47d6d4c576cb0),(0x1d102a32fa8d7acd9aaf341b1de0b8bf022f1bfaa288bf696568550e8d82197d,0x2953cc21d76da0374bf188f308a6f0951bdd7a27160a8c831f278986a28d25a1),(0x51e98449b9ab9bedf5e797f31406d804c9621400b6145b4679b6bd7a7ff3b8a8,0x7a30dbb888fb044d8435f810b088907c06c330ae8e4da700ba75b74d3e251fe),(0x1c1e90f52d7560d27e59e55cd22f90c271d8f0610248b12252d2a903852e9003,0x130d39568d33d32eede49255a4b51acbce2b2360aca582909bd2f5d061085412),(-0x14d4804a2b37ab91ce889b1a63cb193c2d72b9f7a03d3a00f2f491698e9a4f1f,0x8d092c008433321dfbf65e26ac6ac2f1167231a6fd62329c4530c4cdb7d81cf));
(true,(0x1211c8da64fc2ee02f1bd84af51f8bb014e86ef531e5a8ed809fe359ca8ea001,0x2bb86f91691e512f952a3b2b4b7a0789059e1a67481d8cd51da15c670e037295),(0x20c571ec05bc715e469905ecdac12f09f0b3987eafe30fd6bfc698601320078d,0x158a8f9b0e67e510d2be0c2a949527610c8b78f13f8ec8809bcf0ebc122c7fd7),(0xe95302df9353f166edecc1afcdc9b776949564f155e7077c9cf85216cac2c7,0xb735f1c9fd0b2b3de27c66ceb6a3c55a621677248a6e1163f1790e21a2c5130),(-0x5b942449f2c58b091555db17a8944c93e3332f7440d38b662794a474713c94f5,0x34c041e27b4da87918f85deebc19e176ac7a3a97a0a41936ff76253c125cd63c),(-0x20c0bd9a47f85955486e9ad12b1c06efe220a359beb7bcafa3bacc9a9d2dfa81,0x20a67ea658872b8d87820fc44009bc3c3e065a997140566855cafb6028c8e1f5),(0x8c8b61e6eeb5ccc2622b42bd4a2ebf8d050e09e51401b097113a56daf21a245,-0xa2205544a65e2682f642d58841c9c3815120826d22e9c46bdd4f3ea9bbe892c));
(false,(0x1c209fdd89d82ac95b485ddb35759c6848e0fc2196fb768b2ffc142088547464,0x29ee9694d90f1bb38eeb06a1971a1e60645ed75d6db7b57d932379db929b8dab),(0x24edc40ed0a7c6c5a3db0667e192c7e8efe1d380dde49351ff899975c7948e6b,0x2da9fed9b7843fb2e50febcd8ac579cb540e0778179705e49a8a335ab099f35e),(0x1ea90f5353beb8cc1a60dd1548a9bd176021b005fc8ba707711df9c97dceac62,0x2e858c33e89d71bc8bd146150c6a54d72178c5788852ba412041856ce33fdd8b),(-0x8936e10ba1379a3998a06116337797afd1a5284d2dc7e883bf2edb3238817c4,-0x5436afb37ba49413ccc709ace1c3672d1a2026cc2c2a865628ca3a7449c5849),(-0x13fc4ed8459e5065e1632be3958ffbdff17ecfca8e72ac10016e296b1d804882,0x30bed28f6459ae7e5eb081c9ddce39d4dabae2e897758658e335c4d419c5cfd7),(0x127c71c82ab48caf3d51cfc63adddd285ca12b9c1b58a21ee4bcba250f1c2354,-0x119fad2f9767ff1cd19b0bbd95f08faa4398a739b1910fcd775ad08d9dece6b7));
(true,(0xc8164401dd825659a64415ed60f62325918c3c49305ad06327e2efe2d8bf9e1,0xbc0f778aa22620204c977903c25b3798fa314dcac759e19a05bee9da1d23bcd),(0x2ed6397cc8019b35f0bd56f9089bc23d8977ca62871cfc830d385d1b78328378,0x2785b7ce7fd49223f4ad7b7a1acb0e502cc8deaca05b686ce146b1808ad0c5b3),(0x79f212e6f627d0b6df050db14913e5e240c9c792999f650246dad571bf35926,0x2b31faf52d909c2479d37225e620bc0a3dfcb8c756fa63b6267b529d891a1105),(0x25f96a8d168caabcb360460427c9847b7a6e2e9e3fbf00e2c2af5ab38a5aa841,-0xaa2500fa9caf7f50551698d59171dc479f63926ba6de8300bc8620564742f8fe),(0x6076d3c893524a6bce2114a09c28f65bc1eeed932adb12b9a6be5ac20a5d66,0x61328308592106165a8c3c82ece9dc65c138d64f068a44fb5ce2bf5dadf0e3d),(-0x40d5c0cf52549548ff64a1b490486b365dc07948ee2adaec8cb88ea67d0acfc,-0xd1c40f3727d7bea6e38e825fed9b9de0c75f9a4d36adf73be09df754e616e2));
(false,(0x13d1e4bf24752df0763aacc4232b1cb5379bc38fe29ffcfe81983167880b233c,0x60d46fe2f321e46e26e776fbb75dded52f0c5cf9abc543911b9f36f47abadcf),(0x122fde21608b7f0f1ca83e018b7b389eca2a0e7d04e267a55705a7589a91c696,0x2ffffc135869fb423b8151b4666520d4a7ea871f06a2724ba05147743379547),(0xb812414aeb0fad00bd9d6c03b68b1ee9dc174ef0776dc280992867555ceae6b,0x225199c0509776080d5ae1642592c2a0fd3ba81928daf2e1316b766095025d49),(-0x79afb8a6dd9b8cadb271e8621f13f517c1668a31eb9b52f974d8dd36b430e7f,-0x8934afccedabe803bc1c3e7a103dd045f78c2f24ffa7e6097f65aa5c5753891),(0x75c5e5b8b0fdda30cf6f59d6e0d194fb6e1ce69209682f8c2b90e48231484ac,0x4f5142858b65ab17f2947f47add3919dbe76f9af4231d39adafc9da25b52654),(0x72aab31d977fb00094b99180a2add352de4a5e010d8420f64ff85f80f8e9cd5,0x128a9b9554a397fe101e1eec109c963c102a5d6f8d3f0761e61ec8457d709e40));
(true,(0x550967e49a02b2111176ebe05f807c810c7b9eb5d203c09ff89f648bd0235ff,0x5396b2b8d7f2f4bd23be0cb0268ed6df3c82e84ef517633c0458392f485a6f9),(0x20741c5b1853274cb94f44275139203f1c5967da52941fd986c184a91940f9f5,0x24b4be6c2389130678db39ddda96dc713a7cfe14cc47e34001bd23d9cc6a72e7),(0x1309fca16338d303df5ab46dca90732d3d09e275dd68d47f2b18dea56aebae36,0x1aa56336da0a1bfeddb016a020dcbf6cc38b81b91289891849598d847749584c),(-0x18d49c866b5c4d35fa3a96f62ed811aa459348d25267990ada581fcedd9cc987,0x341e8c97b4498f376e5b6aedcbb011dd3bf61fc342e7bccaf504134fa768448),(0x50bc32ccd111c0a0315cac686b1deaa9358f6a47ca4a24b4d4f08c89e5759,0x125c5e98d56e96e9c70175ea054764224bf5b3e714339e32e71821f474d631f),(0x2126c5ddf74d3f1b3f076b2a2f2580dea551ec087829bcb216efcf11630eeb2,-0x53df87b2677aedfc3bd93d04f610b2bbd1c58e333dacf51059f0f274d3749c4));
(true,(0x152f5591b5a564a5e01592ebd7704349743dd2e923819e936aaf3da65f4baa5d,0x4f6b48f512ef63d0e2e86fa8148e179ab2a5633f2e1ede0f39e738e7ace354b),(0x1c4b592b1e03c57b36965f5eb502211d8ac02b8fd6e91ee594b049e91a02610f,0x29a884bccf6122449234388446fe1c89c576dc3d06f3676a6df3369d741448cb),(0x16b1aa6580a195e2c7c51275fe6a4ff793a111a855c8205d34d29c2a610ea867,0x22b97dd15776dffd84593366425a9c8c2fbbac52a51bd0254ff89631b8ad7435),(0x1d6f8fb6676c71788238d9efab044b95c27ece6bccefa3ce362d455931a9ba84,-0x7876adb66c501e9bb22d50f275d7b93d59d7a442721331bbd2501685db52e8ba),(0x8c3e10f8ff2c5979b4441546746041ada11f37054ed0dcdf008e2b76e91dbf1,0x458932f3ee6e91fd9d5126e07fbbda3a3d68650ba6a3092fe8ad7e1e02b2973),(0x2542b6586376cc5bbdbe4f15dfe7ef297b15189fc36754ce29f6ed79c8945db,-0x1bdc9e5646db4368d01fa705b9eac853d9593228301ba410a927c270da616f5));
(true,(0x152a418468e5aef80b87bd06e4f6a1d48de974c5fffe76745d427c16cb74ac67,0x1f57c5512978f1ca97f3d59c653dc4ba97bbdf164289a752826e213951fabe70),(0x10b1ae364fee1c2b8bcf81af394cb320a983457b9d1cd6059db2bb809d8778b8,0x1170e9d274287653a25785738b85043fc4fafb1950ed1e438cffb83cbb6ce5c1),(0xe821cc26a9ed26fe28f333e94f01400020362273ec61bd7d8a5b5f1d1ff0bf5,0x39e4d7ab4f22c98c8baba827808804c5963af3662716029225971f96222b7b9),(0x20d30dcdeade5a56210fab497e3d593b2344a6fb02db41fcc31e6600105c5fe6,-0x565f17f43611a93b8bf9583ec7329fea8a81656debcec6f5c4236bca2e1bc6a8),(-0xb0b2241dadb734b9ce3b296f749932f6d7025d21148a0b923430002883ad0f3,0x1b6ab0bbc56334bada8c16e12db0e38ad4532065d42248c01d25e988bffe636f),(-0xa9c93c0dd8b06495ac86069808b6f5f6365de0c5a9d053b4b9fc2fcb1eb1ded,0x121aef11484cc330ad397071e213e5810a53fc89d328fc125965d7c4f9766d98));
(false,(0xc9ccc341ee802bdde2caa3c27d8d443b8e90076a20697abcf26a7755165875a,0x1b1b6109203a737df789d1f9dfecb3d750803199e3a1538aa1b3b7aaa8b7c43e),(0x96f539ee0265fa426db6bdc3a2b17a1eae29c421095884b72a18caaea11a15e,0x163263a3c4139f0484f45af611e2b10380dea19364ece5cac167af86603b7805),(0x1ededf75cb208e52f3190c7b62e284b0b86c950d4995a16135a9e59e5c06ff8,0x2275abdcf48bde9b8259f2f95eaf882e48159d4f3366f9b3dcd5529994404c36),(-0x2a41f083c7de858dedcc8961635ab5647240b8c18b9fce3c13b3bb535ac67a7,0x635aa25bd97632b38be1fc752dda6f9135baa9eec33f12350e46a0d91ae3c02),(-0xbe59a08f056798cc994a3287b4ffad35260a74c7e0bfba58b7f9dcab2f65e05,0xe214212b42eebfdba8b8ac4d5537db61b8a46fa87454a9ecb60c25b43b5e070),(0x48e52dc2d4742f8a40c458695f64e74b32ed00e306c223ad046d5a941d82dd9,0x2d3a73e25f700fffbabdfc0fbd741ea5650ddc940a62ab476e511d2018962e3));
(true,(0x204542883731ee836c7d946b6083b69ac4b90d9e081399e69345c2a32ee9df0a,0xb622313957cf57d5f438482507b4a92b5b6d4c4b7d92338378758a40b0fb887),(0xec3d305f5e79ca4fcf2e8016b5679678015ad95a6988eefc1cf9222ec51a303,0x1cce405cdae20b9177a5c318e7c76fc276f510b0520422f179880ece38da85c1),(0xd8b0584f1f4ec6cd658c1195d7cfc523851e17ee7233a2af7e20b5aabdee998,0x2a5a21a0fd40d256abe34727d010acdc55b20182ac6dfdcf6a64d418bbcd58ef),(0xb631807a1bbc4a3119d488b0f9382cd63a27c9730e2a9e9845def96c3f5ecfd,0x14e6b1b8061915eb9817ec1c7335c97e31ca222249f5361326819d49c796c51c),(0x12d7994ccdc01def95a518da70a768d481564ee2ce0cc51a5b18d590dc2fbeec,0xf2ea3d2af3c17571962ba8b3fcb56a2d41c98c20a5182bf074bbd8fd2b69fb7),(-0x1fff2558a79c3962aa98f4bfd028f7a91858f16874d5b404a3b7721cb4ab932,-0x5a93587e726fb1f362e2cd2ce8328d749de4c5a51a43d9b7043be151d659380));
(true,(0x271944bbf4ed979d967d184903a00d526ca715555295ee19452fae51e533c934,0x1f88879f7876f2ae757984dbfb579b79904c7f786840806c43f242d9dac88f7f),(0x1628ed22a1a7c647f565fccee644e97940212906e9892a386c2f55c922bd3650,0x12c520537c7d69272224408d69082a85da3c3d79d4736774dc6aca27b7e228e0),(0x114b244d1d6eab2afc51e368512edb4aee2b82802c84607bf554ff5b540f870f,0x2bda86f07adb7e9a337dcf4827a96f4c29e39d09be149bee8bd7d33e4a70b173),(0x49d62f8325788c30af11fc8317312f3d7ef8298e9234dd63e95a52046755fca,0x215a96320e0017bcc2614d1199bea2da2cf8e43c463e28dc9da5ded31c52f5fa),(0xb0ad62f25f00dee56a603936bd842b259ef757945e2e82c92b57247c1f6997f,0x32f49418f085bc74652e7658e95f8c8c7350d3f6022fffff3b570f79708ed41a),(-0xc83a89f0cacf814e554ce7d0fc5fbb1d02c6729ea53c3850c88434ed92b59c6,0x34a290fd75e7b5cbd451a2af4f795fafe3237af0cc7ff6b464168231bbb5c69));
(true,(0x293f875e2ac56858fd5fe6690d6a351d48c20a9b016c8b377e3b37c8ec6f9e15,0x7696937f51c4c5a793dbad596124eed89b8eda8e5ce92825743c9f3db028b67),(0x27c0b038cd97a6d0fadd9fa8cd1824159fa98b30e2085e73ab4f191fb304e428,0x215bd3040094d6ea96114b39b35f8270e320075fa83234e841a73d0ae4396be4),(0x2b895453d9c380dac7726a25039db9eeb6b2f67b277920da7040c284faf31efa,0x1b64c7a2d0a6f8c33af0c7a48c747bd4930089476320cbba73739d2b07aef0ed),(0x7724cc4bf03ff1e883b380e01a6dac3bf5a5f668d525670943dcc0d45f47db4,0x1c7c4a40d8b97514183bfc833a979123a016b0f82fdc4cf9b8eed301a857ab90),(0x22061b7e2eb6c66fad21b12a99a7313063770b1604f05cdcd1bbdad3d48a5a80,0xca2a02304d95ae29e2d6fe0edf847cd3ecd4516447e278a139ddb35e52469ae),(-0xcc2e62f937bb38ca77d79c73bbb5e9076de1f74a5d04c0c2c098d73d935d733,-0xf212e0a31690ff66c298668dba9ddf384578a1bf4658966e8b145dd4dee6d84));
(false,(0x16731842a6bdc35c6721a0a716ee2c8098a612f3ce073e3a27ea2a75f70afd6e,0x2ef0a6ac9df29191572a8bb2db3dc6d17cca84100bee14c76981fd4eb26073cd),(0x16e47716d6cca6b7ddbbbee1d89d6b7a03cdf9ef7427bbf31717d17c2d46e55b,0x149f4e727bc210950b948a237e048de602470efa869913fb54c7d7a4f6ab0e90),(0x23e576915fe2a1df022c813664e24ff826961400b0c2080cc83fed10aa19390c,0x76fe91bb2cf94b7931852c0683050bd6de52d4c1be72f9aeeaba1b45ba430ec),(0x42ead734d358c9b8b3345a5470308b862b80783735aad49c81c3c0bf528550,-0x12e568f2c28d39d5af422cc5a6e4bbb08d53a007d54fa46fc886a5a43eab67ef),(-0x231dfe8cb1c463c63da18a2f9b92977efc41e40d269728e492c214fe6f2ac483,0x2b8d5bad9e6c3fc603386d7216b9e3a14ff7c9ed2659ccf799b1ff252d43f25a),(-0x4885966174c02dd0ec47eed28f82c194cb3a8bff2758e8f78394f6fff63b52c,0x1643549c66c33b6c002bf2d86242f97871561cd1f4a80d6c64524d8c78890b58));
(true,(0xf1e1099c5f842948575bec808fdf82c29b8d72329d52dd1b4755e6a68ca3870,0x2525238e83d7f62dcb8b967d15b55d8b0165bd6700f4ed7f89eb11faa2833250),(0x22a4da26143c030e2af8fe00b3c6e3b29bbc7e9c5a01cf55c7d9bb062a5bf44d,0x1682e97633dad9767ada78b06f266bf71ec882a63a089129671ef1526e0ff652),(0xd72f8197bfe0fa33e28ab3cc69e13ed729a824ecb255872ad1e432e27d0ff28,0x28d37251245f6672eec91d195bd8feb7899d7be6f0ccddebfe000abf0c4a5e27),(0x4e2e7fa19300a76f3f251e64d88da59be0548da1f5b88926df1ec964c3a7fe3,0x138522ce29701b22058f479f02c58c7ea8d4c475c8f7ba58c41b94c3f2fc220),(-0x17ca1fb4f8c04a5a8035447dcecd058a85cc65b906fc0042f1cc9f1a14c93665,0x17353ed0ac97c866b8bb0117496dceb8ed9f532bce5cd4aa92e9f39da6754802),(-0x2389961b02d6a8836b528f78689c7ea22c1053233385547ff3049ed0c64fcec,-0x99c48bebb1262f9dd07096ecfc380e50fa0b55cfb59c37d89a270028fdf6d55));
(false,(0x25ea119ee7906fd2981a2b2dfda4dce12f30f340e9a6f578aeab4ecfac4f638b,0x204e5e38098fe54d2f0a2f5914d92d723ff8f3f47a26bbba7fa4e9423da70f69),(0x72c49c56b063b5ee0f45f1d908982c10a83340d33a21d5a719ef799bd310af5,0x2575ad92112d447c0fd4ab3d51c61c0d717aa87e280798756b863c61abbd69cd),(0x226dd88be360d6bbb9055566b44b11a616e97e4ecc8a21e14c956dd6e814d482,0x1f120ff21029b6546d805c2b99568185fba8150bf8e3cb8e2a3edb9d41b1d436),(-0xa5eb3b9a758fda2e187dd40ed7df3af0c7001dbe612a1ef33557f2015b8f8de,-0x4b7a8b8627285816b00306e6feabffd600eab52162db61c16e2c8322b24a71c),(0x82351773b75f3d993e951dc9a2bac70e5401faaa412d56bbaf6c9b95ffc887f,0x329f70d322c33a8eaeba83f894c5de9b5a2030e047f9f718bdccf8d67c37a633),(0x1f80a588cdeaf29f19c827801da6b6416abfe96256537474ee4b798cfcdcde67,0x6a0af074df1aebfada4d8e657c38c23d5a391762785d0897524dd65929adb7e));
(true,(0x199a2228c48ac5bc363bbe75a8ca5c14c319217d670495f4a56367a25624c141,0x15801763e7152e87e0cf0b6fb1600db3f4aded5ea0046a4f9f4de007cf4ca16a),(0x102904a5c9db10b11f10eaa6d7ecd09f69ff35b2840fb093860e5215e8972418,0xca894dcc01fdb8cb91e49f26a518401f3d06a1f0c39658bdbc28844beea3cfb),(0x186a38f2088eb64df27eaffe5dce9912a226b4706f2e579dea58a03268894a52,0x15268c148acd862c8a8212e77f1532d786246f0ff1a615f565e26f8c2e4fe410),(0x5c9f6c78ae538a05a3a6eab7cc6b2130e5ddcc413e8dd9a6ed27807a76ac96c4,0x1e27881a1e401d13786309ca08f7b0dfc4e04d419001c6b47db91724942503a2),(0x3fe1068f21f140ce579d50247aacdeadac21af38caad2ce4dc7d2c5b197a40d,0x16bff7c58ceea2491be4bb9b0ca8405e3f47df049b6c8513c887000c45d26e49),(-0xfc61b38768a955eccf0ae856e299ccfd100d790a0b982d081c8c0d3c076df7d,0x920d521da5bf00cc69e8f8c4a07fa3ef85cfb45bcabcc63c408b521703e4302));
(false,(0x92df21a3628c5a53e95dd293a4c9495a859c0d668f949f634b372915ab9123d,0x1a84c8f5b2068cfd37c6a26d29ac781f39542254aad7b2b24c4560d3de71514a),(0x6987e6dde60c28b1785f302faafe4afc6aab984b5d0740778607c4a9a07a977,0xa96930c13758f1c5cfa729d05fa513ea01ad9a8e9d8690c06989cee37b6ccb4),(0x2ebf850bceda8a18c48a70d5d43b7aee4cd260830032ba50b3e0ba7ce8c70e41,0xdc7383533710ed0314b804f667e2971ec7b37218ebd3133d66a97c42e6a3355),(-0x5949edc692bb638fe2c6157f894a9452c1524d93bc086ba51bcf8cbb20b827b,0x6bea8e0116a832ffc9fefe5cc2816dd91e131c0a2c90bd97985c8f0136a31be),(-0xcca7cd91addc06acc0a72752be44cb365722204d139f770002fc79494b64971,0xa0f89b1f436fd5769b7f1377cc07b1050aa6b734a5e408fafc97997a658ae15),(0xae04bee739df16f26769fce224d890de35e615f6b4db95335321de291a199c,0x5a253cb7058f294c0f564507ba29f8c9fa863401fa60bc966cf8585c227e470));
(true,(0x13bc40c3b3ac7b4ced611074defcb2346f40b79a8c8cbfefefc3977f24839216,0x63c4d7e54747fb5b0551306388109484cf890b0d716f5f84992d817ba39640c),(0x2ebb6abc3e3cba99603aa8da1acb238804911029c90ec4d1841b427b3359f0d3,0x2c0ba3bd411aeb58e1a2418c877089ef1dd41924ed56d6ea136f194f7c551da6),(0x21182db693316cd3990194697b9423f13d4b5adaa065c6f13b4b61d127292363,0x1a1b80886e5e0ecdd4016876a4d565536933044d5126db965e98c1a9fa4a0e27),(0x26d51afcdfc07944a4fd60bc335001557bb8c01b2e98c81b2360bc70e01b0207,0xea0787cbe8df9cc16e7bd70c57303bdc4533d26c2ee452bfe63faafcc5231f4),(0x73ebd3de914e3db0cd0cd90b7f3620272004bdc48d8757e4501ffb6bc213b55,0x51605b03888be1c2b138d8dca37155159deb8e459686a8ac100b1ea0fbb35ee),(-0xc0eb50755b28005b9d7ce7211e4e2e6ad49a44fc2d4c07bc7d1b608b84f902c,-0x12d10606ec257d539c5c793b9856db0705436480659e8ed3cc1c117cc4f354a8));
(false,(0x74fd8308c54f98c928eaaa3e76745e3abf28938458074c9eb4daa72d1a62f0,0x116b35f160eeca38c4b3594d7afda5761f8bce12485450faed2649031d13fe08),(0x87c36e3b45194e98dc8e3d8aeeaad6a909ad00970ccaddc3207ad21ca8ca9d,0x2f3f9e6cd6a1a0cedc838662eb983f987fce63b0c078d1d1008998d8919e418f),(0x1a9fa3df9278fb622da2216410da245fea0a1548e42ba29491f1240dd18b64ac,0x8d10a8b70d39d6e63ba0640f8b6333e17af4982b138bfd83af47acf12a95272),(0x670bbb50a911f2a1d66c3bbb84557d58c61d90b6d18fddf84ad6ed7a9f06d7f,-0x85b19ff19e29c6326ee9ae4a74fa81952bd4b68f74f34dec0fe20c45d54a6bc),(-0x644009e61f875af37a1181dd0205089d8b444712528954c5991fd43e924fbfb,0x5438d8985995ca4a2b92b678d4d6dc3c7c74b376ee524155dbca890e1d1b2f),(0x196d99059b94ed3e51a9f7b3481021378a18407687b89412af24579444fc5df,0x1099a888de66ac360c745c316a46ee0dfdc514ad77690fdee52be65294be49a1));
(true,(0x28e67c24e2ed792a0ba7760875d944e9c9c1cec3de97512d11f911c706a5457d,0x1427e27c5261f7d481700b63f4fb91b93bae48342144b2ad4a30f457e1f533a8),(0x2a78449629d61e0f5a51079c363f71aab2b053149639b38c306297c827884ae,0x741eba7a98870067366c2c11c4103f4a001f52ddd52fa88e278d700a140ab33),(0xff329fc5399133f3d22495317a32ab541ac48007559204e1eda05479af4f653,0x217cbe165a4756e37c5b2a177855b15cb079945a8088ca24e65c8041b42723f6),(0xb009f05a62caef24e92124d195b51d1e8ddb35feac1724fc941df3ae9e2a33e0,0x21f9868be9e95f7eec87a325e4f8eb5a67d128cf02dbf790d813d950afb6c10e),(0x1a2c67259c8f9bf3c369147aa6c04326e3eb776c07947a27ae87786481242e97,0x22122d14692e12cc335707fd48160eab5689e80bdf7610aac668dfc27adad1c9),(-0x1273b4766516e2ac64cdc12560860e110a4a4a52d0d261771b79dbfd821705f4,0x20ea548c515f5c3a4e60f56b4f815ec107654ba169038802efff5a32839ee8c4));
(false,(0x158da040721805d513aa07762fc095568ce71ba0f1125dd2df2433f97ad096d0,0x2ab93abf293b5bba45a8c648fdc04249d2bbbf4314f91942de86383bc8e0b54a),(0x120c9df63774d54a7b949c12960475c9d4288c3eb956e798c87dfd6e2c388e9e,0xcb524abaf4808be40039bed3ba6327b6e168742826132fc6a8fd784476ee74f),(0x1446f66f3aa2f3d96372ad56e4cfbfbf3fb6bf40ae16807c3eefdb99e75200c3,0x12de0e85ae5b62410ea1dfecadbec30f726adf87f1298b9d46c51670d0d0ff81),(-0x6a5b74188652ef18bc8704fe1e1a08ff36c24d6ef4455e6bb78208aa59af21b,0x1affae1bbfbfb4cd780ccf228ecda8fd1bdba3b9a88a6081462ed4e39e5d3077),(-0x1c1ea06871362d13ebd9bed8bd9903a765de6c27fe5b773cd4d966def361cafb,0x260ea97ca60a1a4cbe28bf1cec5e87578b1688a56b3ec419c788c76134b70b24),(-0x20b879a5e41826c256d53136d0a1a9c96abecb88e0adeb54066479c9b2b5912,-0x1004e2e0afabb3ab0a968c4b75ae58419226fafa9a9e35d97187921c9aad5131));
(true,(0x5c5b40cf4a299eebcd6045fd53dd884436be214c7c7826bd66080c016e15b1b,0xf9137c5a932ecb3b5e723fa9c604e9d9123921e8c475c258c25d61fb0395243),(0x2a0fa054eabc0fbe89f6d48209eb53fd76830178c22021634662ba5cbd9486fd,0x2ff67f483fc6299383f204dd72b1c25349368d92361f99b0d9212fb21ab094d6),(0x182e714f73130470fb510607bf70525add31fc5336e9ef72593b4ca9dc787e47,0xe17be7de372b3281c3ebe6e8e7f7d3edce3e2d55899840028808e58caf045e),(-0x117c9e9528774ed1056343413636d444958d534dbe91bee7c7b7067142f9a04b,-0xae4203f5e70981ae6bf55db277e24c0adf34dbf7faf0551c572897ac48e089c),(-0x451bfada70f541b7c07499fbc066832b79618d1f429d1e2fff6a98d98099c4f,0x3b6bafa7b8ac4bf647de5f505c717e4d1299f34c1f92ccab7188fbff77500e2),(0x87a27b134d6c832ab4048d5c32d3cb8906e6abd7e17ae02f8a7f4e2ced2068a,-0xbee01a07fa71a8fcfe25ea6db3cea0ed560e8e4fd54ce2babfb1bc6df5693bf));
(false,(0x2cb7b7d85b24f52b66f54a355d9fe0adbace91a0b698507bfa9c7f3800df42bb,0xfa986f3223405e1220c458dd6ea391752c56529c61bc25dbf377b798d173a67),(0x615f192385c5b41e7cdcf4d8abf24ac08151e7e933c28e6f673b1ed3587a670,0x16cb6c7248ca72de7d0d01c563099fa9a0f5b2daa3a57a2ce554f3f0210e0bf5),(0x2cf41441285e01380373b645322e801422a4f545fdf9bf2f0a17585bd4f071ff,0xfd1f907b75e8c417603646d1b60aceca2630b3d95769f72de0c2b864cca212c),(-0x96f50d52f91779ff31f3d324c2ec6054f3e651ce4e1cce9499725ef22d36241,-0x1a8c979c52ce45d23797eeaba4fb39daae8227a48bf51a30c18c2e0973737a2f),(0x2440d821c3cc632a7b3cff7e2070350e79b25cf73edf905878cfcae921ae1dc2,0x1cf234211cc0c0a2dc87aa02bf887b7555295b9f3eb965a4e0532a1f1c18502b),(0x19191af23c5e77d150e935307c60706c6c751e4c30615d4da10d52e2cd900b3e,0x22e6a1dece4bd02af8dd5ce51c419c874daeed71c56410dbadb8b8aff10ad614));
(true,(0x29987b6d7072446afc2accac23247a0678e6d1ec5f97d3e9ab4f681fbf2c1408,0x2bcf9b7d843084053a7afb8bfc7ed4197bf41da7fdee6a12bfb2ffbadb61dc43),(0xc4d233599a6cda1c9b4ea69d1c43551760d533ace4daf27053c8592e5888da5,0x51be7751c15a211194bcb85f2c2de02b49f8d5abb7f34ee55a6800d6f2474d2),(0x1e161536e19f55adc5f2ac74ec97b83893bee16f18b8eb6972723e8e35f9c129,0x29d74297dac5d619c59e00a36daf35f9a4e88c40ea05c663ed46674392afeba2),(0x4e8cfc718c11cc6212c91d69c751df8a9e149b2fa1cb05a7325975dd04772195,0x5b64a3fd19efc7e84436bbfae1747e126b850a6df43ed525845bb4406e309d16),(-0x3e8eaf8ad1724df05412acd15627cdd8f41ce88cce09231846c781ac84afcc2,0x4b50f4b404d484816abfaea893edc857044908df4f99718ecb064a66ddc93eec),(-0x155aa967aa91f885d45d0b43594e05f402223f9d925b76a7086efec18ccb6dbf,0x9931a2578fac6cb35b97bdcf200095cbed516df8a0c5bab84ae1c4f2187c4bd));
(true,(0x1dbc5dfd4b5b4171254ec6ea38642f128a49898924dfb31e6f3914c565679d2,0x1087957a3afa9c48f47e5e1cc3314626b5a279826f54dc5b544adf3784871cae),(0x2b96d4d589464fd204b2974620495953cb4e269e6df10063ce830419d1870938,0x209b92383e106e043504fe8ee80a64ab14c5ad25e2b0ed31a7a983740b01a50f),(0x1c371f1e4289bccbe2770609c9c5b804231609301901e734865f669549c76b0f,0x21c43616eace30402c313b13b611425c459062a2e603a05bad7e08ddaa6216e8),(-0x220930a753f77136b58bebfce1e40cdffabfc96e89928f3f107f9c344d05ccb5,0xff9a2a2e8f26f80a0a1323f9adc5de3cba62e859de604e874c62e1554fc6358),(-0x59325cc21a9db498ea3898f31da9f6c56cb49a8b06c9e9ce32e091bfb002a6e,0x145072a04a9143944e9b735964fba144dcce13d2c85be369bd9e2eb4bdd9d93),(0x830fd42b3ceae7d938a3e8aa1b1f3355bceb1c1ca6ccb08b23bfd48a6d34718,-0xbbe4cfc47e46f17ea2371fba5b063a116cc994039ef20f190f260e527412f92));
(true,(0x1cacba928e61ab77ac0e3e1a3e4eb16f48fd86bb6f6961d8cdf239450b920a7e,0x2037cfbf3dc0dbf285bea1c51049a43d2429fc8507a5ea5e2bee82a1240106d9),(0x27c0b30531d75230b2a35788f771e11dec9a6588136c72e53402acf766dafa03,0x11a5103b0beb83c206fb33002b6092dd4c34f8ba05dc78ca3916ebe38a6ccc86),(0x16e7421a31799a594a01a8e098f8f7aab47ba6dbf5c5f78ecda5eda440e52130,0x230f7dca02c7462a5ec2dddace93f5ac4346362ad0eecd03a1c5ddd74ee55e9a),(-0x3f65b1916f9261a45c452ed012aed85b6d9db7f9abeba01c92820d9a208b848f,-0x62a4780a5eca021857cd8e16826f4654241fea912b0196383f9acaf49cf64c0e),(-0x475681aa9a43da4ac34b4bca2e6b586d174c6e64523ca43360cbd51119d02a0,0x262e8822a2f2251a48af4cd839ef3f4bddd18497143dbf9edb959ce3c9d82948),(-0x7b0496fb8cfd4e2c16feebe8e2eb0db4390db082919013af8e189caf1fe7a66,0xb6ba83214ad234961fad3789b02dc22141dd1b40d7b11343a94b0352945bfdf));
(true,(0x28662fc4c3dccbe431fadf24fca53e85d31d30a692e8295dab6dc5307bc85067,0x1619bfb68ce7ceff4c83455bde4a39197508358b2fb69dcb3ec4029a661952f7),(0x218135fa92d4b1c04c1ed889fa0e6addb993ff1bf7e30c103b14a5bb569bbd2d,0x14618e58081729a6e7dd55cf4b33f9ab40bf9474a53233ca7ba89b680d752b12),(0x147288b28f14b9e707cdabc9d90f8fa298c4256f7b5106b7cc1c2779f25c95ca,0xb58667db2a14b03ef54c17a89214f28ae782888eec073a16a78ab0b72c29498),(-0x487332ad6dd2b2a4bc5f44ab21ac1cc3a6d812ed6097c3db5d16dc890dc6ed6d,-0x78259f1b7e645878958fb64eea8500a087e320fe82bb981201ca19e23a89a20),(0x17a21de823bdb5aa125a3ebf05ff9fdaa59617741d278f54cb3161a2562d452b,0x24e6919da05c8998654ec2dfc4528e8369fc820590fbabb7750f615cba9fee3c),(0x677394933bc92c69e7d3ac50488f9949124e48c1a199ec27a311cfb46fd742c,0x91b12de419113e133e2122524ecfbc8439efa702839006a93106aaaa10a16c));
(true,(0x27e6e1e6fa0bf7b51ebab10300ad0e79463d6e8b0662c3a484fd4f2b11ed4597,0x191c168195311d3fefaa154579025fe26e9d6d966e9e9a27b1192ba8dd15f0c2),(0x27f84da52af48a9d14915ffbc7a6bceac9680dc2e7a18532f1857e1f21a9865b,0x62dfd5d81a06c9987d52092b8033ebe840cff6c7ae785b38f7402bc572de780),(0x29ed3b0480ab273025b3e25548d5cb1fc5483f0156bf2184b5f45ea8eeb2eb3b,0x2a55ad3b3c96dc0109e835395ebc6d9e91e7f820b0531fd248429c9ef3a89f36),(-0x15e4f99e041449693552aa5a23a59c3da5a842d3fc6f98a16fa985486a21d165,-0x2cbcbfbc96cfbefb866083553cbbeb9714c4ade109ac08734ab929a2c960ce5c),(0x13df56aabb066c826d8554ce2fec7f83385916008dc4c8df4771ad5a595c85e8,0x2968ab07128a1bd4b5d0582f9b4586d98e6ce535ae3d6ed974356f25a5428708),(-0xcb327e46d3016295870f42a1d593fe0704f8a91ac0b3ea9832550904953c55d,0x85aefc8f276716b09d22ce0b102766e2619dd0d71bc5d1db265dae1e5a319ec));
(true,(0x21948428fccf1ee26337219b71136bcba24f8aaa9c5f2f51ac88373a71489bf7,0x8b99f74f97e48f0b829884505b5de20c0f7505466dad1f612cb73f89b9dc378),(0x27ef124ab0c6f47c04a17728cd2f70bcedddfc810dea40747c1f6d2446468fa5,0x1eca1201bcbd05339671b4764116c54549b7925a90e5ccf664ec7b168a0092be),(0x244bbce1577e930889b60bc64a5c72221c0c0b8b4612da7653745613a5c9192d,0x34e8f57c6578a329ebd669f046dd3d24506ce6b66eeeb6d5cb6545526df04be),(-0x35c08a905421c8060f5278c4b9753025249dab953c98500743098862cc2d0027,0x2b3f6aed449977dbcf10736c5fccd335cde4438ebc30ecdb9ed93dac44af255c),(0x15ba9606cbfbed6b0e854d60234d0672d1bc2819bb9cd9208e1429a70234419a,0xc1beb59fc521096e4e0672903cf31f99f1b095e9c92c72dd662f4890c3ec29e),(0x476510181acf9bf655294b2c2045aa5d5db89e9c787073b17ea3bb548a0f0ae,-0x111219553d758ad0d68ba497c8b5bf9fab63c678baa9cc6998eb71784cad87da));
(true,(0x43ad37c0d1bb3f573b9412cfd73fab07b508419c24bfd1111d380b5a878533d,0x11c5de499747866f8f3052c90944a179d2f83d18fa8a02c735040f8f1f7c44c0),(0x298d736babac26eb2434720acc74fc659d7bbb31510d0dc8d8a2deccd7585f1d,0x2ef62702a221a03afc4787322ac4abc0801a403c7c5caad35c1665fc19096f5e),(0x30611a05c2735879edd3cb10b6a36917d4b6b87b79aa6deabfab58d01ade850a,0xf5a9f58177343718763b944404af83c8cdfc8be2260abc5249e469d27453f97),(-0x242d6abc1870c4d51fc4237b106ee58d3b46eff8d7cb5d385557dfdacc30d48b,-0x7d3575d4810e53866b1060d651b2d779b598eafb726092b18b8e89a4a40a3188),(-0x62863918d0598090987b0e77e1c2de2b56591acd85794dbe9f0c03ec6133632,0x31b61b812257209f6cdf8388d7cfe51ee5d86798e8d080f6d6907294f62572a),(0x5cc5030687e1f520931db2dcca068615c9970c5f90cc6ade742860bcf79e0c7,-0x2020fefa2c562af6ef053160103b8beb344914b9aa6f67b0893d2afec8ad263));
(true,(0x2dd8a098e341d1cd83c76fb3e3f473fe6e078aa1bbfca97dee1edfa93b252fb1,0x194c04a52d4ce6e47450be791db0b23094b8d0a71103a6eb5a9bb16792f3d5e4),(0xf1e7e2bcd5e703efe4bfbb811e9b27f9b98fe2b7b9839ec4da8dda959e3786,0x2308ae6b1dd9681744887e88635f995eac732700bab7457336789eef51034ced),(0x8da73654cb67760f7c2c9cc817511d2ade7dd6d475aab767cceebba32055c5,0xb6f3d8f7fa4e60701c68be535dd1bbd809bd22b5d92c25f34d8ac5fe480c42f),(0x694c053d58620269a3cdfa7cec2e6a7f2954eeab310a3e7e727d8a0540523d8b,-0xa245e15ea508516e40a37bf03f0438f178fd9a9b6acbbb0f8d886d7ad6c0518a),(0x1e35dfee53f6c1c2a49946266e57262ef4e7af05767c76e33b6eb7d28b7a5867,0x2feeb3d8d3b72e2ec6ebbefccd853ce28369439e99a4df05957ac641f0b8d4e9),(0x203c7bfa5c5c0906761da23aebaad8e2480fa5b23fb0152e415f4f5e9f11be6c,0x2087246c8c8cd668e32759df12d0c5a7353225bef4b0d42d757eaf6d70e677f1));
(true,(0x1592362b3d4ad407de713a4e7b039972aa095d8de0a72bcdc15a57e117f67769,0x7928a9b55ca107eea1aee93e13155712cbd0d45032faed1f08bd0400b05d5e3),(0x26276f67ede84adb896180c2016dedc73be2bf67ccc32667bd3e732c3e0aeb69,0xbd156d8e99f3deedf104424cc939833d6c15cca0437f56640ffe48cbc07e0cf),(0x1f67596f7b2ca9d94cd018814edb226453e9a0f155f0e8d96a9000c714653870,0x1a1aa97879efd522e49abd6f159ae8b47f5b8a2aae8c4211c7d8da16e9be733c),(0x48f2fd835658ad0dd4c366bde53062b1745d7593d4404e4008fbf801ed483ef9,0x6433d6a958307e7997062b13350b080cd9b0a6a883099948f408bbddb855ba8),(0x86e3c30d55647b3f109f8de226dedb2207f0426ae50047e2bc04d9913501b95,0x6c03f9d60efae6a71590ce05be4faaeb9f6628e408dc3b1d385c3138838928b),(-0x14381f9b5e47811e5216474dfc1bd38de8b6b2e686388eaaaf31fe326c8f5dc6,0x486bc0e000c1d271fae18352c9496e4b941c4fe33220a64227344fb03a76696));
(true,(0x863d1562a37d4bae336ebd274fa06eac0997d39f7bcd0af8af64ba581097eef,0x83a859cab46102900a71decd6ab1b3e1943cef62f446e1c51d44ff8cb053220),(0x12586ba6ef5e60582f2a3130c7ca6e2b07805ee5686da21e73d735df9facc4d4,0xcaa79ae2b90ec778509f24ba9fbc07f6ace711962d1ea1760a60ef4762a1aea),(0x26461880d37c0caa0c8cb45a1c3e94294dd93fb39d7b0ea323011e5d9f822ab7,0x12aa06437d214e4d6f51ea80d0ddb0b5112d60cbe31e0808a4ff7d57c0dc0f2),(-0x4f93ad2f4b76cba50308113dd092e16cb4582162ab0adbd675f4f724a8ec2590,-0x242c8a7ae2ca3f6a272e7392fa685a9a15c9c843404edbad26d3c7e1df22f88e),(0xe2e7f2f07f5fa0fc4a251f4c6d5b295923ca813a28519296bbecba380922d,0x2da6f4f8700cd4d952fe9a5539d996c88af2cd8c2913489b3ee500e9c90a708),(0x3941b73220b908969eecd66fb3c6c14dc2c4e882a82346545d89df32c5f4e0c,0x338a2a35da20fab1ddaa9b2763df8b9793f65d05e041bcde7ddacd0187a215b));
(true,(0x17cc2ed6ec4f7f3b7a4d18ff936d8b8f6c9b71d499e49f7909127d61166fd79d,0x115dc1830d0d7ff7c09c2e9534ae2b1c7073135f3b31e8bb3d82b75b08b42864),(0x29757e1cd9d23784dd12cc1f7a14ba452b05b8f6976800f2990e359902519524,0x2303a93cc5e6774eab94ddb1ab31fbe52e83b372144d15dd86b6ce100ab118f2),(0x5e9ee35b361ff68501c039ca0811bd86f574117b8ff9e688d082a6b696c69db,0x2b34bfca8e2f50ff51f1f2396a7a83cd40fbf513b22a71401efb1b1ab6a8d5b1),(0x19e33b7411fb1d83ecef0902bff6b2b3beb4eefa4247fb843fcc03713e6eb18e,-0x313760919b0ccf3a2249cf889180a433f701847f2c1e330b0e92f8b015b3fc),(0x5788292ee4e8caacd86a6b4ef409c7b5e2ffd60780d838c033dd90fc5168eab,0x111491803a6cf1589e5b8254122e191e528f9194c635995b0f68f66d60e3d60e),(-0x358afa74fed701cae503d9be302728a8e3fb6d2e3bb4750db7196af33fd1a6e,-0x1348f1884c6c648aa775ccd20daca51f74fe8ff8ed48b66f2aa2841d64945a5d));
(true,(0x2019bb5ca0f58918c64c81547d1e485110a5858850aadb53d9b5fe4a26f1f20,0x13e99d71591dd217c2982c2aa8ba35d27050b7610ab878879083b6048950cf3f),(0x18a4d2249dc313f0c7945c4295e96cc2b1b0694160e63757d618fa7b1f7d50d0,0x1c27e4c7fc54aeb82d395506bd19b570622d2fa7c9050fb469321ea0077cbdde),(0x126b5a262ca6159d1a3879005b442885d4458d23be3b86063d2b6a4c12c65161,0x8825f2eaa454e90be294a161d9b8664442fd7ce220b4d959cad714eea1f17c9),(-0x419ece8295c99c7595bc85d2ae4d046fce01b7cdb3ca13e1d048cd5b0ab0dbae,-0xab89d1c22909924b6479f23dad6a0895de43fc0ba3388039b57ead0bd2efcfaa),(-0x81c4db9518adc1b09e9e1bf0036d6f915a0ebb9767446c4a8e88178a3ae9b1f,0x1a6af6b53848bbbc580e7240b15fd0ea4e97d1d0873ab77d87836fe346c9512),(-0x22001808a8257e7584525bd12d1f8f06ae1cea8e1e597e7e112abe58eb74418,0x7341ad75ea5a83ad80d354e6d154609871815fbcf8219c54cbe7848a538c5be));
(true,(0x2272ec1fb4db09ee0a3a9bc9ceeb94bf7dc5d69b5d0ade2d76f289237a609a29,0x1b156c4b811513e26c19d4c037a4805ca8e7e67ce910051ae7d73637bb60bbca),(0x1352735195ddbd0dfca2ea85c98313eff43ef5baaea16b0098e63394ff03a9ee,0x290e59874dcf7f9649649b44dcf7e6b1c4805d1eede9fe367299fb9baae30920),(0x2de273ba88d6cb718b9d06c9cfb77eb79602e094ff037df3d2b37c91d1cc908f,0x2a70beadf0ecbdd826a4ca3739476c8e00aff3462bf28718435a9288f6acdf0),(0x1c3204ead3cd5849f49d309c189ce5e95e736ef857bd9006b5167603984e8946,-0x354c66866e430d37b8311b972d51ca33bb0d97e0dd05edacdbab8bf1136311e6),(0x95d817ced649267a33181cff5fb28bbcfd8a92ae5d0c21ee2782e1b1a3cc2e9,0x268f751524ea33f6d2b4f594a6b541050a3e92963326adfaf02a26a8d4e89368),(0xb02237655b4ac0f9bf061e3898e1334f2ca92207898c04485c09a9a66140bfa,-0x634735c141ab7ec417044913d8b6f8c50aa648832a979860fa139a386cb04d1));
(true,(0x94f3e0a7161c251a91e10eae746f15da1cfd93cdf663755ed515c8eb70fb23c,0x16874cb1c58c7086fb2c1f39d7fb3ac8893d6a4e23c9b3f5b9d2c0e6fb4400d1),(0x1d415322832d783c8c1d358d5c615f8acbc893788d357e7e64168b139d2f2c1b,0x2a5f53d429987b6610df9e2fc79b38c4a4fc966a6384efed5ddd96d8147291a5),(0xc86fea8b4173c28b712981047778f4c4087e05968c4979dc6abfcbd77c8578d,0x198ab771cad9f64788fa71d5cd27ec27aa4281f333858aec901405668e79ec27),(0x608962a8c3011eb10528402ba4c9ef208462fa0e45aa281498f2d110ad5df5c4,-0x369d6e981d021c8be4976f1b81744dc285f0e1b00fa7935724d3ed668b2b806e),(-0x8b272482f243637ee77947d64e66837e203322983df7b1a27e8f6453f241338,0x8ab01ed218c9029447bff214e438e8bccfd69b4452fa3798c459f199c642ad5),(-0x14c50ee3b9c31e73f9c18fa851a0ee8832e9284978926b278efd6c64fe15cd5,-0x4e0a58b3800e3257205535f485a80755c0dbb993b7f80642a193cf77f8fb600));
(true,(0x1e3091985c27cb644f36b8f8dbebeeb155367e7816411c0e45c2adfe43af0a27,0x1d63626d222293adc8514bec7aabb23d14915448d593cfe1a5011a276f9dae87),(0x25cd5c42496eb05669109c5146afbc5f7d4dfd41c36bbcda4050e2e2747f1568,0x1f63f6a2a1cf30dd5155df0b3f0525f761567e1143c0c4da19de9a900683ddd6),(0x203736bccc3096d0855115488ada30ae1c5537d9131bfa53b9b6e3e66f50343d,0xaaadca29fda7ba387578fad6314b1f8930b2cf46d8b4c145543335c33ad5f1d),(0x2adaaac058c998e13f51e1d1c7b5bad3c6e0c0b4031a90240c96d6291f60df0c,-0x6a9cb06f76a9533bb45ce20c514b0e9a994c292265416fb044f6cc9e560c129e),(0xfc9d34548e3ae62138f2ab8610276ff6699e66cd31b8118351c99747b6a6ce,0x24ab13beb8c7a1ac6368304fb68d6c90f92f3db95a3a0c66f14a3ee4b0e2c0ee),(-0xc005c8ea372de678d0bf26f672cc65eddf01f3f4b854c41d9770e973ef9dce2,0x1a91c0878587d66ec000cd22a7ce7aba41a0ea86a04d74cfe28a7c3beca0e06));
(true,(0x2e9ee676b92c633e1b102c1709ca93213caf3a459752e20c652dbc1a0a355b6a,0x9f284e031ecaf4192a06800c76f2a7e982f435d819d76599bd674c98d5ca8fe),(0x2e01a337c5d84303e7d8cb9511a77f289b84ccd62c1ea6a3f9beccd76b39aad1,0x15121882696934b4bebcd57fd9fb744be8b9bc7ab36aac7daa8c9e2b5a63e919),(0x24bf8ae7f688fd2ecef485536207f8cf1f3f7fbd90b8be2aaa0bd7185f15a080,0x1cb68f72fa24490be7d10d07f18a7e2167fceb7bccaa4d350630caf4e1bcdfbb),(0x1e2f387b541e187afe57bfd5f849ba62f7a1b5403df30f41d66feefa00b929fc,-0x7154470156cae8490d4335c93edcfdaf427f9d84ab5d5489ec0770da3edc80f0),(0x2adea16327d26f34dac6cd3c11e2431f56077a04b6c99c3cbe2e414810bb7b49,0x132aa2a282cec855c1d1d9d72ab32a4837f99c263768de06a89b680149b96f55),(-0xa06773ff1643fec1e145e97400e980d813c2821c6998e685393de40158ba3db,0x841727ab665dea8a5fe9a850dd5cec59dae002fddcdfa71743fa0819cc78be4));
(true,(0x91551ba851331279fce0a446fca2f5dddb700c0f781c3b7f930f45466031c1d,0xd3fee55d3691d3d8351be0706f5da8683d01498e3838a3c49d73f206ec4e013),(0xe9f5681c77e69fb35f0d8c921b0d8d818a8e9bc44dde8e10275aacbd00c9077,0x255a1634e1a254064ba9f8ae1534f30c1838e487a7bfac820ac99d045c3b89c),(0x223f14f206cc916a92d6879d3daa35c4ed558ff6f4974302f8e49f0e1ceca93e,0x2a0ece86c46b2bbc3b94228c24910d72507782d93f034248ad2fc40c6b0cd02e),(-0x699eafe190abe163296a859d5a9e267b134ac7895ed7885e8cee83f02e241f1e,-0x594a2a5a549de1963d535ce583f3856a1942aaaac591426268cb48e305d92228),(-0x1ec3ecf62ba5ffabc77df0a0c710cd6050293969df29d1003048dbbfd2eaa7f,0x4f9597e96fdea794529d547e7cac54dd50efef55b1390d4e099dde46fea5280),(0xc2c876cb76a0a7e40e9ad724bc67e051dbd1d4fe7950d3ed283d532ddbe7eb,0xc1c1bf6b21bd1fe0a74fe66ac7622e1733202262bf95bfbeba52850073cd8a2));
(true,(0x19f5445003a64f57e84c65e2331aa671b15b196ff8a02658ec86207456b025ec,0x128046c48990ac6c2c6c0c7c17f351d062f0765e0eeb87e7db7e03c975c5afbc),(0x2d177471dee2495462b35e35a082ed8042645f12c80d6e10066bd1ff01b4662,0x28bdb9982d63e520650d05ee777343b21e186ce1012c8be7213ffbc5e1ac6148),(0xf5ac93e64e109ef92a58f68e34dbf038a0db030b7d476c71d710183ab14da26,0x2800babb803148cd44b686d4eef05dee659b298a8feb603454ed73af7c9425e3),(-0x855f6c7e177ac4f1d779d43e69927fff3a1d470fee90d6830c61efd341feb65,0x431311875ef46ed4fb77e41a1dbb1532686c41e8f0915a9a24f3143213ee88f8),(0x6d9da21aaa69a7c16e4974eb8f1ba7c04596ad2df147cc38fc0635db7917e50,0x13d936e56efed67bf64f2d064fa14bebab592c049f37b4e8f8773dd1411ec6e0),(0x1503f736f2ee9770386ab4af3e68e2b9bef24bd4d2d324c374bc45d614c62678,-0x1016c2c37e314a7f1d9411d738dea27bf33bd19be5c5e968932e6702bad266a3));
(true,(0x19fc19818c4b186de108f96aec082c16601dc00dbe7690bbc9491441e379de6a,0x16e004cb50c8146146886395f42e60f84c00a2d1bf5886329cb4d82995fc9bba),(0x2bb260df238a3b7e7560365029daaf46acc496bf51ffd46e85fd8efca13615c4,0xecddd7c630ef8fd3d3c6a8b3544e6f27ccd8a6570ed6f73295c89b54799ea6b),(0x137e8033375e61da3deb8d99f5d15547028f97ffeba1c7416cd09f6476fc4e2b,0x27a0a55f6207cc4ba271a72b5137987202fb1a6a9a733f491529504789ef14c0),(0x5114089c7dd70ef57c611b99a07ecb46e3580999672345a2da5f755a9d79b5b0,0x2b3da368ea888a92b600c5f74debdf8ea31885895ce7a2fb81604972c097658c),(0x323c7b4a5e491b955963b5405411ed0cb6f73502c12c26c730aaf312153ac08,0x1890f756a27a3b389efa1345f0ef5f948f94ea5cb201bf552d6bace69049890b),(-0x2235ffeaa7f8fac5c1b64819336abd87d836949141c47c9cc00ff9d672531d51,-0x56570e5be1d999631f76a726bd85eb989f8ad0fb0ac590415507d06cd759383));
(true,(0x29f691913f9ccd9d3206f552d5d29d5c6b294a90e747a4eeb231dc48f9b66369,0x159ce5737787bcd5785a7e3df27376b679fe598158f548d66e232507e016c481),(0xb101bb6664b99574ff329742168401b99abc97ebc1cb4f036576b5018bf0a52,0x2f1a5de2393052dc1291fff68f08f526dfe5ceb154dd5d8a74289fdc18475666),(0x1b766159ddc0c60dcc3814580f432addf7e8f25dc99ef2c6525cd3601c0f3c91,0xe79b6a1d40ec220fb59d29417ac53936775094459443cd3fe291476ac2a9bc8),(-0x6a5f8f42e4e10d8b0e3944ec57a8b9cb4b3da126746af30353a5bdbe260ad949,0x5eeabc77c287d1ee31b5e2f1706595bed8f197a8ff32b3bbcb9d6733c1d9542),(0x1abc583ca1da27f15a7ba395bdaae9b5e84fa7c104573dac701562245a8b8f1a,0x257bbedb6e292bac0e2c04d8f13da9496fb0adc8dc0e756f65086aa5650f81ba),(0x2ab956438ed964675acb47fe2e5f4db2898b377a23d6e5840e941779aaaf75f7,-0xd6edbd1af0be2e3dfb5d1f363541d764ad5b820130f9a63cf483a411b2f092f));
(true,(0x2eeb613edf607e7ff3681be44c8796514e84c7c29171c993e0148d2522a33180,0x264201a7cfb2fbf309d583a2256269274993393087effa93805bf2b11077d45b),(0x32c9cf6109f23ba0d27a76aa688f3329d47419720f5ceae5a5a9168dbea3c6c,0x294835b7a602d3effa0fa47bfcad4791e4c0a0312580fe01fd68cd1e051e675),(0x916282434d860e3007f4c415348195a74eef6e1bcc3993c8c1d27c663c036c7,0x1385d281bdfb808382b54c3247c50022e526e712dfabe3d4c5062984b2bbb71d),(0xa052df7a6b619e8fc868ba3a311458c7a319c210ccf79c9f46c5e7f40691aa90,0x6e211812fca5651a080cdf88887a56d4143890c494f75934ee6bc5b219f9b82),(0xf3eede388cd9e0db5aacbf0dc4d52e688300155c075bc10cc9cf71c0cfc8431,0x4a3007324159aec893f7a819600b776558a76e18075c1976a7b5e1e1d590b7c9),(-0x1b8ceb69484f17b3aba03afedb6893bb21822eba6c9520558a54816ccc57b465,0x3167a50832efc4886e1bd703bc94b9ea517ddf31682bf9646ec8ad24a6aa703b));
(true,(0x1158c2ceaa4b0450f2c9afa734b3a8e06aa7579b813a4bc5c13bdeda0cbd8144,0x8fa4185b4c4f0c4ecb8f40bd7c04f8b47ae451cbc020e9b04f111881a579434),(0x133ad023d629a83e15e31196aa4e1df771eabd2dc977f30412207d6b3c726f20,0x30517dc2f497f79fe2c1095a687f7a32dd0da86d5ecaca5760dc35d265f217ac),(0x2b688d4478179b85d87059868867fbc28866ddc60a2d3c34edeb4e67744b75ad,0x1743d8b49fab848d17382eb5d5981c2ac43fcbc9a5c1adb4460d0d2322aae4d5),(-0xf0f26a9aefafad851d9485e6cdde79c5b87ef1dac3e980156dd8537b80db83,0x105a35370c5942786d64eb1c683ca702e1281540f11ba9d009d8565f61dee128),(0x48d7bffdaa2fe000a4c3fd1d2563ca82b211f6a8824adb28542686ad6cbe038,0x66faf06f7f475f09e18654ddab047a085728deff7223c906d2246cf860465a6),(0x2badeab6eb564c3ff38edf95cfd9622acbe6e754bd3f9d83fb5df4f99fa49d8,-0x135fc356f72c8e2295648bc81ca5e8f45cdfceca00ed9cbc2b0604a1d6c983f2));
(true,(0x247ea00710ee0a75bbc93acd452f38e6dab7b86f1979a737c2df5b116c86e14e,0xf060e405767856e48e847400d4216e8918cfe946fcadca5b71d2a7f0c29d1ea),(0x29fe86d68aaf8780d1225ba650f0a7b7118791d07e1024cd9066ad7cd38503a0,0x2d316417986ed9a9464aff31af645ae446e0d693dc1178bc765cdc834db4524e),(0x1dcebbf583d479bb2f91423ffe2a061eb343fe82563553ce2b305f7077c93b95,0x28f905f48afb890573d16e378ccc380be9ca8088b94a399f936b2dcb1b8f561d),(0xacd67090117c26deedfa427176e33a95086dffb2ed49983a93ad9bed25534f88,-0x3528db5d706f53d3fbd7a3049312395058c47849614b3a4df827de89fb85dd90),(0x16dbb00942b71740b0466d0b616caef959707fe2d1ffa32ad417d54c8f7c5800,0x16a8fee6e558f7cc476511e1f41c8ead98329f8510e2de7a42623154b1454c7e),(-0x12235c511ed46ce57974c5f3bc2cc549c95f015d3a87e8f3ca50fc46f85fd762,-0x4b5de74a841904887a902d79cfb9c98979ae1713cd290333e89d7c86fd2bd42));
(true,(0x23f20ad65ab97b4e09080eaeef1623e245bb6e8a3536388a6d75551dad2fabc8,0x2d95a969cc94dfad0c95a042e13084c6ff8272e4f13483a47668359a580225cd),(0x1d136811f795c8096d8d8f1a653dfc80c7ebdea0b767fcaa542831b21bef3d92,0xac215ffbd06a80e16c6285483de76d2f5b22c9e5717e3d2e54ecbb3aec9a6ae),(0x2d835fd1589d379cbd32ed1111326bab253fec8915d555e689d16107c38beb10,0x13e196295340392192f0519b0beaa812b5512fbf6c64ad1841d605f48210e206),(-0xf9edbaba6c6310aebd77c36f3552ec739b60935dc4337f5818ffd6197971dfa,-0x764897295dee77d43d66d454829a4c43be5785daf719fdca9ea8ee104f40c402),(-0x103d6c22a2eb9410b24bf6c21931aea13d4a83c746c4371d4eeec506ea53fced,0x43b877161b28d242b468ae0c6e8364020a9f56b48bbf8e9b2760a21c301b6fca),(-0x16d76618b618d3a481760f533a4190c33de1ceb5362caf7c68c3a44a051b8f03,0x25bf49f63b19f1e0bbff5007ebffd3dfa5f2d02182bbfe39b69930f2803460d5));
(true,(0x2e47fd2b111c02d3049f3f0db6ee05b93d1a157a0fa41d52b425d1a027f1d0ed,0x21cb69be543e9297bcdbac8c7e6567601c460eb973f4f1b5c1a91686a21cc0dd),(0x2cc9c0070ae152980a54379ec718331ef0f4dc4259e1a7cbc914828a41dfb5d9,0x2572d95f04ea0f91ebbc95c2667bfa3da5b0bb98d3aa0e0f6fd6f0f478ecec55),(0x1493e60c55d061c97d46348a0502f5129ba78e96a93957381db5622f188a8edf,0x2689698157743dfd75003570a926955c2ef564bfab5fdaf5b64fc346675f4515),(0xe0da14252fedac6dac867fefabfbf9d9de4f9075de5d18cdba93d252997dd9c,0x3ed024c4c4055eb74497f06231d96c8694b44a4891ea5a2fd0fd08973673160c),(0x14a97ee7c1a2ebdb68c8ecb3de38ee976793fb7e3340a65859325bbda4c23cc5,0x40a429471cbc108ad1a36008c9cc9de9740dee337408e0404cf6a3ceb17d60f7),(0x39cc5f2f8ec37d59bcf438c87f8146306230d44a947a3b5c26a237181c592f7,-0x247fc48bcef34825e59fa921c237c50f516c642f34e7ee27f5183196165af477));
(true,(0x1d132aeacf106886b75028491cc314e703e04f89fab720ed4275781d4a794a6d,0x1dea92b67bea32b3c1bd93b4e0810be7bf342852c5e77138091573fa79f5c427),(0x1de718b59053561623d42a2898fc865419f8a14551408ea82dafbaac22f7b555,0x200641f13e4e54a51cc12d8a4ba3d42b01f6771e1f5bd4f2d3d0e5aba58b69a8),(0x18661ea494abe31aaaffa0858d15dcdac5d7f8ebd5ce30a5adf63b62dce86181,0x2f3b9789cf268c2fed2ceb78f7214132746d9fe4ce05066a986e4734a25e459),(-0x3c569f95a4543c128aa66a7c2b019df53590a1e4f89544f39d1c8c1881319f18,-0x8835746aa3df76571ad0457fdf69279f557b04403d6f0a3ea991e0837d244ab6),(-0x106960bc37634a76c622a959bd25723075d734084ad14d3cfc157559ebb5a79,0x23f2e10f95c9a2215a0d71ee1303b83e3311059ce53b9934408d00c6fd0577fc),(0x597156f96a9eb3f51d8ccb576acdcd0910f484c62ed7bcda5747436b5f8c93f,0xc76147a58fe230227129e030781a52ece939792f0161c2ebbff8bdcb82b8c71));
(true,(0x2425fe2eed6371fcd1857d59f210c351857b977fc93a2ce80d5a891f5340fb84,0x1039ed82f709a8e4ffa0ad5faccbe42ccdcddb60cee6bc0511aba58fee08f113),(0x19df46ec05d1c58875ff353d9dfac95545327c31ebf65578a2b13f6e800483fc,0x26ec22fa914c5e852b2491ab2f4eb358c613bb8e9e11af7c3b238761b0e0b755),(0x1b81c34da20b28013b29819c951ffee1159bdd25b04853e6a7c0b772b5c60d58,0x29975d4374ff6642633d431013b2717c214155daae1d121c8e61b304c0054837),(0x2a9e1493699adac6cce78d69744e6870e7ddfebfd12a5a563018cef6728afc61,-0x61f5d61420d42c711257171f0f8ee25b5dea4b47ef21a293e5f32f6d6effcb2e),(0x158fd2e42ea82423088ddb33daccf9133abcac0b318f6ea3fde85047c2c60677,0x183deb78de683c568f9fed13eb515c882ddaaeded35a0b7f44ceab2c6931a2f5),(0x552e177e415fcce215b6f7b8b02188c348e7b6d80463a61e362ff757a920b0e,-0x3cd1f21217b32ee7448ef81a5a3c291f554296fc9401a2460feac40c65b790f));
(true,(0x4e2c694cb9291f64401d0cfdd49b1f3dee68439ecbacc401e715dd935dde705,0x2562f9c5312d5d1f6c1ae38ec9d3bf8bc78fa3d9c299bc99c727eba89ef01a71),(0x1800deef121f1e76426a00665e5c4479674322d4f75edadd46debd5cd992f6ed,0x198e9393920d483a7260bfb731fb5d25f1aa493335a9e71297e485b7aef312c2),(0x1d9befcd05a5323e6da4d435f3b617cdb3af83285c2df711ef39c01571827f9d,0x275dc4a288d1afb3cbb1ac09187524c7db36395df7be3b99e673b13a075a65ec),(-0x64a2cb5cf278dd95fa69d1c11daa7128b6ba97f3a56b65b38118f1c15c4cfc5,-0x49f4a5359df0574efa3eeb72cf2df89f34cc5ae81ce20727395db42351bc233e),(-0x1c641318a429d25e5e305f23d0ab957f224a6e77172e3aa7ac1b1ddb4f11ae6b,0x78ca6f6bd02301832f722c836a85d2622c5261fa458b7dd12568253d3212a12),(-0xa2321c97120539b7fa3ce80f22c1e6d230ff82c77bf986a85f7ec10fb61308b,0x2cb101af4f91a09b3a48c4385ca0905f1f0652f1d3cf113b7d27396e3936f4d))
].
(** Powers: (-3)^(q/3) mod q and 17^(r/3) mod r, neither is 1 *)
Definition cube_q : list (bool * Z * Z) := [
(false,0x30644e72e131a029b85045b68181585d97816a916871ca8d3c208c16d87cfd41,0x9);
(false,0x0,0x51);
(false,0x0,0x19a1);
(false,0x0,0x290d741);
(false,0x0,0x6954fe21e3e81);
(false,0x0,0x2b56d4af8f7932278c797ebd01);
(true,0x75648e690da5a4d2eefe4588f7cfb7be364804214818a867a00,0x30644e72e1318a26dd9c93277299cb8dea77bc1a75fe205fbb5a4e9238e98f44);
(false,0x30644e72e131742402e8e0986db5460cf927590a1dc3f9123a40c3172247bcbf,0x6019da0e9693bced61597ff3cc737da765c0ec575c0db73a804169dde02ee17);
(false,0xbed8a58fa34214fa1edec6b8bea97a723d359b141ca22e45d9bcdbb19f1e37,0x1593530805d090f35a73429aa8f0a17b65ad17c7d56562cbd7619a6aeb2909d0);
(false,0x99e92bf0e492fca9575e4006edfe925cd3b23a158ecf94697680a7d6e2c7424,0x1c0713adb943a93e9a2bbf48e5950f01ccb17efec7abadf24fa9558de6747f04);
(false,0x103babd2aae604308fc589a24114de12ab9e0d3a6306f02c31d273f10543180b,0x27af991feb8ee4ad333e17492b7fe3145dd91d7f7d15308725fd83dfd8f26e03);
(true,0x626f91a6f00c2951d1b0ac73aa759d72188746dc35f2b026ef072350bcdd259e1683075cc2a44be6e660f986e48afb4b328cc170f092268645ea04fb3e78c4d,0x1d90c6f047c78600e06536dfb6aa9e87bcab853ca22ac853c4b558f790ec3509);
(false,0x12103b0e8cb059cdf049ee703ae8c4255a7e4401898229f4a09804623aa9e272,0x242db3a309b98bc56343ea5ede6f5cd3971a37ec3746d79764c7429bea7442b3);
(true,0x51ce2ae801b01f9836c9847a6bad5c238cb40076315e9183a04dfabf9cbc2bcd89c2f8e09874d9a784262f31a721acc3394803dd72a4970ea586118b619b7ce,0x1b54081e0a7b4c3e48bf71baa38d0874915cc572ea91644e6d071bf227ae63c2);
(true,0x2ead54baa2ec72d564fc01c3d334d8023cc8fc5c2b3fb2b665547eb08e4e9b1e86190091f9dd64f673bc1c605a78457ac71f7efa0f3c03d6b7281f86473550a,0x309afcbfd0bf41587eca20188eeba63c94d1c42779aa7431711c667e67db94a);
(false,0x30d1e8d6482a6529fcfc2fde2b40823881cf99c2177dea2de48efb839617b6,0x2a4c122842706f4d9391950be0ef44b04b5be8f453a20fa593f98d15902897ea);
(true,0x6fd0c8ffefe06f42e833f1c8facdda97619d3a49729f1bb4c564ebfe38c289e16452c6500cb9f74c855bb8bf174ff0083002995c993ac47a0d05201ba80aa0c,0x1c02994604eedeb4c739873768d47b442f8eac9180b7bb4b10fb72699b14f3c);
(true,0x310918e11f1197f3f55e95272fc9045d7c529edfaa97f225046bb70c24eac8d20c2349068d4b38305f60836e70656a733340bc6310be6fc0aa8c6dd32f997,0x150ae654729ca88aee1c5c839630cd818acf0405074ce7dfabca59ceaa1a385f);
(true,0x1baca40a8a281b0dee366659e1efea24fcc25ed0ffe6e927c12f67e78b6b85a6e5ddc4291ed6a3dd62d1f3b6391ec14dde218964f6076fc6d2e4a5a5c457609,0x165eed8014134e5d762edd8e4d346024ae8b08ebbd780342c8010978d8a038c5);
(true,0x1f4740549d874e570ed487b7330aff3da22b58e9ca80c25c9fe6b58d7f07c325afc59cecf6d6b3af62a2f512742beaa7b633d595ad514b8d946429ddbc353e8,0x1044ae9798eb55574de0e3afdfe4a35793a0e1431b050bc1ad00cb028f2ac4c);
(false,0x578139291321e192e61dd94180de20167c7c89c97967739ddbf053833e540,0x109545374b2d805397e8758be9f6858d308ac3d30f6d788981d0eb5308b161d0);
(true,0x112ffb08e7a0d79bf19c860401667b4270a3c3439dbc9d1c22131ca8e1c76c25fc9060efef78c8f0c8271bd812366bd31cf76720fa8dc31133e6b62e060b426,0x1f3c8b9d49b0045eb075ed36175ccf79c0521eda273bb495f4bd2cb1e3b0df76);
(true,0x3cfb821d5b75a3996f95202ce2a1b70f2240b08331734a353add39729b146e6e43348f27d8fcb1cb7916e208fb8011e37e7ddd301943508032a89b975a4404c,0xcf8ecea1e705b66cd9a289ebe7e630eb8c966a844504dc1e343fe6e8679a57c);
(true,0xa84841d3b6007d8bfff83de0ea277367eeed12bbbbb0816c39f648b600cf012122c9e3a3162438c942074b4a545411ef5a1667f7676098cb454f2d3466446d,0x103c2228f5b94d6f2a35d3a663a0d4c007e718a1561e7a98acab2ba936d47105);
(true,0x10792652679405d1fb871fb485f3d03f9e9422badd83a1d6aa3c51ef6ecfb7bc41554fcc8569293a836ba50c6459ac512271ffad083ee69256304ece6abecfd,0xd885002b92972e0dd1b72b1329eeb8b5c6afc8a7f0c9e85c20079e4bc962079);
(false,0x3c8c5fb9c97c349b7c51822c43331120b39f5628e244b113ba9b0af0972bba2,0xfe92f7f3567a87857e09f4c49032d1926abfd00ac4995d345e1fa9235315543);
(true,0xfd27f866a15140dd35b6f368df3c2fbd7881d079a0ea90b30281adf46fe32f049bfd40f364fa201b9a31552100efbd73a50d9d0e61f8233be519a3fc61fb0a,0x4e84fe0900e6ad955948d575bf9ea932a92c0e73c11be9dc475d4d0292b039e);
(true,0x18154fe471eb5dc4d519d6b90ef695ecba3f65caecaf8955f1a1299b544db7932eaa06db7ca31a23576b53cd963d105f4d873fc37e0102b9bffdbafedc1efb,0x192301a00b64a8b66b10fe6f2f874ebe474af22be1073a3dc9aa05c8fbe8473);
(true,0x277db1ab3ff6a9eca70b7472bd15f623589b8f7448db6c9b19a618a0347958096979d0d252043e305271a8237586fdb96151640af5901a2ccab4c4afd95c9,0x123fa29cd35d151261ebb51ff555c7eb5c6d05e7dfd89f260fbd5d407e07ee25);
(false,0x6e1aceb3083a4ff7a3eb00e0413043aa6137f39d79ecc70577e69d10925ba5e,0x1925559dc93119d3b65c13c79ea5fd920671bb234beb9f246b27248de7613b47);
(true,0x278502aad89e817d04f1b3ae0c688b7c68c19d4ca8dcd552909ffd5ad754c2672bcf2c62ae55bf1ca4fb7a4c12c568ae2724739eaf7533264ef28f445f0dce6,0x3be648dfa61e0a619a68fbf3930843f082ee4e8061162056fcc92100091fe3a);
(false,0x4a24d3659289ce1ece4f0b9de72e95d43c1273c0fcbd6bea7615ef471f1a1d,0x1c263ace0bf95830105f2808cd534c242aa4c77c97ba8844a3bfe84465b03e19);
(false,0x105fd5f7c14cf37ae56d5d15f1db0d69d16d006867bcfd4b4b51086eb4cf5c23,0x1e7afb3a50628e3f3b6f7561ecf06274a4bba0a9de506b0ffe4e7f07eeeaf9bc);
(false,0x1332d680fe5d7d1691072fed44e93673156cc77dfda8dc2ede587a8ac574582e,0x9b0441f929cfab0e0a3282832e3f38c16a749ef08d230a35ebc43f8ca9d574e);
(false,0x1f09321b02017e20b91fc1719e4a489b461a88025bbce81e0f5eefa8c5fe37c,0x23d07dcd617e92df2ae09565e5d0bddf1a4850afde56eb5f76238258c8f87860);
(false,0x1a8187e212bd9daf6620c42a602ded65b255b3b22843267c5be794bfe30fac8f,0x17851286495d993749daa0313622d8ee58d03178f05c03d11bf4d26be73f557);
(false,0xb6e69f6815b56bb0099e79a8431d9f50dc29afb0ca3de426064721d27dd4c,0x1b217fc6aa0e9fad72b88f33e2818a493aafcaba067ae05e1bb28781aeb7277d);
(true,0x2e0155618dda459c2ef06d2a7a94bf616167d8083a17e7b51370846049627bd9fb2de2f52aa03af302dc00576506de9496bcd36d0026553af3c037d1650e88b,0x238d524e30021c5e36d8e6ad456699f901fc9b338a28fe3c3ca7e7eaf86015d7);
(true,0x4eff28525b7a4b7a73e2935a4fb03bc123bb292771b801d900ef3fac2b3ad198dd1f6f5378665aefba76be84a247906c01a3a500deefae1658ae546c2bd064b,0x1087d899df4a80c153f4dbb2a54eba20b925b3f76b4af4c0004622b8c796fdb7);
(false,0x5a5994d7434fcc9fde1bb8b5190ebc8b4a1e6abc6cee2ee3fcd877abc9b1561,0x621032e27fd21faed696ccbcab5422b9038f93fa76673f3f38173a309c76dea);
(false,0xc6b83b51c7974ee17b560fd2c872f78091768e9ffa478317305958d0db71fb,0x279ccf67bbadd37858161a1042aa8425e6219f93091e352f2c64e4febae76e47);
(true,0x621273f09a49dd410f64924a8176ab41e9800c011810646d8339e9428e3c7118194cce1af064fbc6beddbf8ff1f0bd88ae481cecc579bec24d7e84036f29307,0xeac49d2a13f46808d1ed244ecc79ed32ca6ab1e2d5c0b292c2cb1b84f7f8613);
(false,0x472f40a8219a216a8987bb581312706dc3907b16a1e7f4354b0582a26711c3f,0x250af51def118284dc798c4e6f6e2dbbc779d65645be445bd7ffe9debe44ccf0);
(true,0x55c2b52b8240c302727ef0ee849e9e0a10898c654ca96f5749945cd0bccf0ab6e013043ed87eebdfcc1e574e0d3c6ed5306fed556eff4e1ac61f5a8d38c8acf,0x152e5810469bea0e72a690c9ef3f78676ec50f7ec8d26beb481895e72b85b197);
(true,0x1c0a2d66fba260293e15b332c5fa994c9ae7df033888e24db9f162df78454dd9f4d56944632ee3973815662dc271014c7414695b26b3c8a7c1ae586be282890,0x3df49ade7b3d58a579ef7135f091e725ad4935bc9470a5caa23accb86489d94);
(true,0xefe7b859c8696cf9fed63f973afbef62aff888b47814e4fa0f4250c0bd610b461a1af214c35df23e58bd3ca785d3f135f6f2e9f06f9eb1bcd0385f0418684,0x40b1ebcf6fbb2ae43349f27d72bdd436cfe00d0fe43b9031efd9a18e75d67a4);
(true,0x1059718fa5ec957aeb6610be54acc6b3a4ab3113ef7826e67ca93b605a51610f15d1b28a639d9ec5e939ab429195a1027e278e6a1cb7bae7f1baba2c441e35,0x15ccff1c7ae871566389f8a3c3660847acb8f466f6a4dc5b34fd7ffb1e0fd68d);
(false,0x9d2449a8be96eac879003e378015259deb5a8a45c6a98fa05937fcd62cd3222,0xd4fcddb3e741bbed6d642b091d92e2ddef64f5f23adfcec92cc0489ba69883b);
(false,0x3a96d3ad6b6198bad3a87e4454789d27a9ff633fef8608335830db0601c33ea,0xaff99101b66629ea7559aaa76e295ee69da1c0aeda6f7aff0844a23a86c15b3);
(false,0x27fece4dab17704bc01e164b33d07b4d155962cb754223f8109f1473f66d92d,0x21beb68dc0fc49290c7ddee183bb1b49e07b9907098f0e56fd0d5db6dceb26ae);
(false,0x17880441f56ccb2df2ec77d89479238887c438d9ea1f07c12e6a4c9127d6863f,0x2e06ac10f0498fea187d1ad4924f5441ecc84fe8ec38197c9f972a9db9c9fcb);
(false,0x2bc6a5548cf5061878b1107cf7729b61141c5e732dcdf4fff53ff833bd924c,0x16bc3af0be4e91dd8c64b4ced51284d3b496cb2d0938233bd17cf07ac52d1be5);
(false,0xaae70a05488688ac33fdd86db0c5157edf2842ab3cee66a7f82ffe2020821c3,0x21d142c44e7b37823c18f0448722a420d30c8918d001e89c0811b445c77906c4);
(false,0x17a1e97d9b1aaa213861a83ad8b9cf6ef2afce0620a70a8f4f6a4e761b3e2a2e,0x2937fed31fd55f105644147c71a9270f8382de60d5c531ef57d5be0ee1409d4e);
(false,0x231be12f75f8210a8aee986851872d4855a3e59eacfce6cb55efc6aa5bdc06ab,0x9aa30d254cf0039518675b2333359a383a0ff28fda4a11733c4f06cb437eb57);
(false,0x1ee251e9de2ceeeda57c708239c41a9fde1e257440ba2d7c8a39f1d35d26a0c,0x21d81c00337f379068668ca0c34ee2baff2f1ab26b67babe99c418d8f1c1923d);
(true,0x4796da750adbe44dd1e2380e756e66556a3a6eb6c0a5bbb785d28f3f4365b9d59d0f902499ae98cd263e9aa28d2e9bd665a59c718e3cd4c0354a6e42fc32a90,0x1b02d8e142aa7b97a4bcd84de54d6c0f559f6e0e8ad49d51104d609643037374);
(true,0x2d999c79f51e771dcb7e864a290d2594f13c860e022ae0503303d45b26ee6522c518e78ff096af38426041f57e33fb264b8ee75339d6fc7cf4e18678a7d9f11,0x2b7b7487aa7bdc9e4f540a0ad0f6d6cb77ab98969c67e12782832ba8e8443b89);
(false,0x27121e0a853d84d57e5857db09033999c3ddb001709bef059c54b598e592f4b4,0xf7fd258e8c4f9e181825d42d4521a70195d04b228cff1a6c0d2c67fafd8ad65);
(true,0xf03a78cc54057c5ff3264197c518147b46aa0a62685d27cdf09fe866506e3158b7da23536b00c6c8df04af3ccd991eb2e8166485faeea28f693df258153460,0xae33a7beb688a309f64195065568b96990ef6c94ea7fd2c8902812fb0c42c04);
(true,0x768a42738408d84c3a68d788e2f87228e3e0781cdcff9052bac4ac0f9aa563677ba68cb111f1e5246534c485b15836b835c8ac53d4de1e8695be4282e9990c,0x2ec4e660193e03d64052531c69943b9ed591a368553897b5de75339c09f305ec);
(true,0x88b5a3c1b89c1c53f151bf758ee485b40667611071557f64525ea96a4db80e913a91fe31b0d8ff78f7b750a5d7659121386c7c94a866e4e571bf924bc009e4d,0xb86161fd5abfd02cadda20cb8c71a53df2787fdce33b94d37fc5eef0fa1f9e5);
(true,0x84cc21e799f47a1dd6d4109818544b44ba2a93730e4e48bff8e38729c52ae0927b5a525c463140d70b660f39f8f6daed552e6ae47af4d9ddf52d1214ba197d,0x8cb464a522de69e2739f5bd01e76192a2b26af8cad2cfb2cfe22720b6fdabf9);
(false,0x1991d5748f4ba567a50a191d6261a4b194d8ac65e7dc736c1c3206bfa1441b7,0x26790acb769d6aad0bb9b1f8fc7b75175e84a956d0e4d8e2ce3de10ecc7c8370);
(true,0x5c8286f9c016373d80268dece3e5c962625f918de9e5d34fe21746a8a5d6cbc059076eacbee529e6bf26f0bf07b01a54a9e54facd45d741aca31592efa2ee39,0x16fcbc3d839024bd7c38f4de85b8daf70b75a75bc02432539b82e4d81361d31);
(false,0xaeb630ccd7a40929ec1ab0acb1fe699f09687d6d167ffb2db5b48b81f7c63,0x105d969b85025d54acf06d910ca6c244bc42ae14642ff95874f6fc7dbf62ccec);
(false,0x588df597cc921c3459681b694ab2c69804dc4c58c93ede7fca9f8f95fa63b28,0x7aec1ad27aeaa19d061b1aa2163dff11d9f1768fa6b428ab93d45d279c80978);
(false,0x1383d931e90fdc1a6c0698f6102167ea3b4c716d0351453e4dd179e8b04335d,0x12f012e04dfe10193a3f61dbd8cdb184b163f1986c75a72e28958a692de08075);
(false,0x769422911ccc7f9dc8e62f83d2901a524c13bc081df4042b0da11dbc0d04ccc,0x28b0cc1cd4f5915b9ddd6071ef21cdceb8dcfcef3b57a5804669c54a86ba4ce5);
(false,0x22370a212c2e137eaa61723d54ad63b453191659231321f4c610bfe3797248f7,0x2a8ebf9b481f6eaa6ad0e191476669490536899e2d8ff0e1e544d5352f6a6d58);
(false,0x256d41b70bf23b5f2cf8d246bb088f7d71b743b3c8b829f693176b5726c761bc,0x1710ce9deec337f4975f6c6274035507b080aaf4915b61102df5d72447a1271c);
(true,0x214063adb677a25d9f5e7ef8eef88cbc149686d103ea7b156f4baa2e7510fb13275467356b839aaa761c145267e1f5940cc42ce642c41a6c94dbb29fa846a9b,0x38cbba6c2fa56b9d95ffea37ec5c538184ba68877ae0a373506f105d82f0043);
(true,0xc99c3b0842d52623a5dcdac1fd491e4672d3bd7bf61169437fe668e589ae871325b21b8488c5dd8546dd73642c99dc569166d96e65f29db07722cccc4b24b,0x159e243bcdf156b900c844e3e33d7026168d4a2a5e0a95ae4f8b352a4f877b97);
(false,0x9a83a7607856cf3726b067a7881d8cd007c417ee0e9fbf41d47115e4a82c4ea,0x7da02359ebf8a061cf6b0463a2af01887d87f2dc484e9a4feb8a7240eb4942b);
(true,0x3da5c6b205b97983e70e72b2f9d1501037aaacea8ccf1a2572cec6fd09788a0948337c215b391ffc6dd062a25a4f2ad0a7251f0154fabaa0e2a9551286319f,0x1ae8014463244e2977f44db32f0a6295f5bcb0d78040841b7a7643ddfda83a0b);
(false,0xef5ca3dc936bc9b9001f5d28c14d727b9a2890f872272590a46c13ee274f435,0x2557ff4e0e29935e3002ec9978095a2e0f51cac162af4a882df2d4c49424e0c6);
(true,0x5728e0c15c23cded9997e4b186535af9c3f56f6e8ae3c3546fe4e39343f6579a58774ec5b480a2ae65bb16562cdc659110fb13e8b1cb01bdfac3a9ae141e830,0x1f3199f1dc07efe17df67f360aa75968c0abcf88c6b2211e19b8c339e93c6c40);
(true,0x3cd0ce4de7324a3f19ebed6270a162472ca4cda57829a239475602196f1fc7e1c8838ac710bff3b033b74dcb6b7dc9a1b08c3345d02b5cff7c56114809f9533,0x17ea641e84bc9a170398c23e8a2becef9f43a95464de6175415cc8ac6f0277db);
(false,0xbd1baed07cc21b33ee2da99f931d7b3cedb6d689255d6adb081787bc8863f54,0xd7ae0d67beb85d94a1dd449e436c019c7d409bb4505c53f9c55db0f2b07c10d);
(false,0x3c14639db4a3ff16cd33295099315811754b18389f3b205eff1e0436f846130,0x2efaee2ebda9c5e613761c4713ae2ea5fa202afeffc4efa4e312507329473659);
(false,0x2d9c18914658ead5a24dcad831c4f3e56461308860e2a39355228a14f03f82ec,0xb23ceb1ac335b509c4c56d433045a0f5b1ba744261a2c00beab146dc2971f7d);
(false,0x2907d9123cc51edde6dda2d8c7455df2ee568025e5510bf14f4c66a433158ce,0x23cf5c1f4c51da234ec14f39192529775c4d50b5e82fd517e1d138f8621a4be7);
(false,0x1a7fdb212e3061a043706caf58b5b252d745fe99f756bca232482da274962282,0x2132a7ccd214e8e264a5800ec98d21d4068c5e07c9fa13765abada1740b71e63);
(true,0x44e1948c828522c1bf2d392ceeedef75470f18afe7597d2c8cdc82045cbcf3ed5bfc6312cb1be006b6befb853023a234a76a2dcadbf99c4fbaac772331b309c,0x295ee57e72289c463604d85c76783873a02eda192fdfe2f25692ee9245d7920);
(true,0x6af88afd7284e927b54dc3e1726c0a3a5b438d42536c7c807bb715b24539d5d81cd0f85ccde8aae8840fdac7158db4d1bfd37b5a4cd597adafc27843870d1,0x17020cb9523dcbef0f622b6a400aff2cd477f42553e267cb22a313dda3e03909);
(true,0x2115e4d804e4979e75aafdb2d5ce9d3cf6fabdbead5342d39219717aaabad4a3e1d10d11801a631654d24f7217cf650b9e10eb936f56618c57c4a99a6bf1b80,0x1dc6c11edc6b4dfe54a74d6a97e068dd160cbe5b74095b6d478778f9926c8a04);
(true,0x376a2104b5cd1ba7721389d6d19f162ec658ec1a30642be3eecd8ffa3a5bcf2d66b33972bf9adee96c217d4fb4741747f319e3a6bb6c97f2a94bc853ca02bec,0x2e0a7046a721d0d42ffd4d32b6d68a7f4f499545011f6c89a7b504165f0a9cc);
(false,0x2bcdcfc46de79883d8056e911bfe52ab5600f67e35c1996b852b9d38fbf065,0x2d4eaa6890b0321a69804ab0de6e79094b4dca0cb6800e7754f1f65a53bf7d8d);
(false,0x2a6b5b7315c18a376e40549896c94064ec527c352bf12b61b6dc9376b86c7f9c,0x1b7b41422306793336c5585b2b733ea7a85628986580784eee2c9bf834346f65);
(true,0x2f33b1bb993aca8a27187cc8027e676fde22aa04f12282a3c75ac96288378b35cbff0fb9a13dbd5c832089695231b19022bf12f836d6fa2d241d03aae1330dc,0x4fa13c6a2ffcb357a97fccb10089c25c35d1ad7da9c233a37da73e105c1e9a0);
(true,0x18c4e8d695704513e934726cbd3683e1be6590189486f4c2dbe4179384c2d989d55ae54f4b57b2bbdfb43c526893eb90e032e560e0840edd5b03d6c33f84d5,0xb91a831a2c5feb8d5347c7e53af302e08e5047bc4a588edf4f5213e38ff37ed);
(true,0x85d7543ab8977205515242578b2da9519b294d1553717d45294ce8bbdacb1df470695465c56fa8e7da9c39ec299b33b2d322da0a85d4c74f7bb6cf3a88cd45,0x296fbc7668aeddf29f2e5636a84a08b19914237e8c52b71d6648fc273bd9c5c1);
(true,0x6b4fb22e6f4eb41b162630aaa383e5d4088f0791de381933889e611d474ba65f9ed75ba9b96daa5ce6b218e129be2a09d8a23dc9a29da38fc0c23d0b78eb7f6,0x1c1ea41f9f062aad9104b69ab485182058500352b731b7821f9e6fce8598a80a);
(false,0x1057030eb3534b78073824f1cc1b301b774b2241f8c8272156090a9f3c2e4286,0x12f3d6dbb400995e1de1ee3df2a4b919edda47c67496c05c04729709acb23f3a);
(false,0x76c34f2bb092e17c9d1c5f84c5b02cd4a426ac389ab9465ecb8b93e9625974a,0xf93d4850088a21a79be9ed57822965711bac2aa4cc2621c88c0ba2f697c819e);
(false,0x503b18de8c3e73df1b7490988f58674833f061276286359cca17fd4388ffe10,0x2967dc0bd1fa5c43f0391d3ad7e2b5b36c429e263a98aa5bac93e5a6e0eb5714);
(false,0x236d9a65471f63213c65b4f9c6488e10683e546da357c7c25c7f2aa6b745fec1,0x1cdf58e8ca0bf6e6fad4e250cddb19af9fb4e208fcdaa7779e4e89debdac3509);
(false,0x1139f764da208af207e53d5fe8909c57e3479d415e10d5aeea2f6cefe1c0a425,0xed658b362645a068540b75eacb3832ec7dc390dc31042bd5404d422e082a30e);
(false,0x48c99e58be9202be9f48fe68127140c338b2e057df4049a67bfcd85b2766dc2,0x1382d2dd015a924bd7155ce5a6cde59f1daf5649577e2d3813fe59a21ec9a9f6);
(false,0x7dddb1a488e7c383b7bcffd795f8b19be6f3670acc98e1047f6146c382650bb,0xaf5acdf6d3bc59225f85dc1214b70ab80e166c0d38b1054ed38b1c9aa258587);
(true,0x781d45ccecbd9f62eea08d8d1fbc99b1c28bbed4c7eba6b10eda970873868d3bfd9e8bb179b515150a36a8c1f2691f0be97bd562419068892132840d51f70e,0x14101e8e195ef0253e7557f623c2b1e5fb32cb755041e14dbdb191156e2a9322);
(false,0x85167affd297330aa639b8e8f29f8c9e6d2261ebfc39d31a59e5958ceec1a49,0x159775f710a6bf9c7fbe5b1b49781e1c6bdb8e27c991bef637781a28c6e6a145);
(false,0x9a24359cbd6f7ccd53262c2f38bfe64f3d032d72c293b9b945af6a575e2a444,0x2583dc864e21fad8a60fdd44fbf0e5f4c34d14048ecdac1cc7a66b2f4a7119bd);
(false,0x1d1542643db1f7d19ccf2fd29c9961e11222d1c66f258795b236112ab5bd4191,0x23f1ec17cf7f19999c398b08690464023d917b00a4bc9fbdab90685673eaf952);
(false,0x1ab31ad484a147dffaca2f565ee916112bfb13bbb97305d139ba416d94b0210f,0x108bf75b5bcbd225b019f2328d2ee563c67f8392a2fcb59f0e3df8ef6fefa01b);
(false,0x5a86a433b131ec491e325d1fc312e382589b91f25bd1385123ea7e92b2daa13,0x1363d7d5a4623772b7c9d97af2600b28a693ea09e6d60f6c47707af63c98d094);
(false,0x7c4f3893c0fa7d644f068e39ff4462fec609e201bd1975b87230151b05def8f,0x111adbf2931d7373edc6089681bacdd5e35b29278ab7aec223fd568e489f11e7);
(false,0x60bc86597de47480dfd66b3acc3ae1b871b8f0899a52e96d2ebbd5c083adfe5,0x10163983395917590fb3015f904f900c8464754d3abd99ada88351690bad14ee);
(false,0x55903c7273941be69328959cc394d46c9f1b606467a18f3f2b27d5dff4b0167,0xba7dc342e81019b6246cab82ed86b5c5af4a12a2643a6e6e2ea0d513b4ddeb3);
(true,0x87dafd857d7d041acaa3685f6fb434364039bd9c74757f600cc6d49c6a7387fa9b01869657977fdc41587373dbd091240669dd6f01fd8dd643f8e2dd26d01c,0x26df7a2275e12b84d439098e4f2000e8b7a416de234af4ee7934d7c4c7123020);
(true,0x5e71b583d4d143363fc6b98928c9a73c5c3387895e301660c41a82835b80163bb65089e9ecd0ed1625f7da59fb565cbaa6d4a37ecf1ee83d6f9c3e999197ac7,0x2cae921b638c9bfda8d592cba76afd30e59bd6c4cf50d35ff9213389e45957cf);
(true,0x7cc79445ad6e93dc72736bff3f49d502e3e82d7e896a91666a4ece6ff4ec5b20269195052ef28ba673cf5938bce619085814a23539c7e68c4cbe15a12ef3ff7,0x52eba854519947033eedc3c4bdaaae5c898f5473c3ff74c19211d20d462c243);
(false,0x8e161882431aabea861351b1d83c87a9fefb08a829f3c9f2a80dc8ca58fa76,0x20f9423976a7f4190575b698f3c06a015a73991c5c6267edd6970f5d575988cf);
(false,0x1677c8677556b5678466f8a31d4c293402026a155c690f0319f45f2aabcf7200,0x27d537e821986f7e62068c6cc897cb828fb7d608bd314c714674056638d7f961);
(true,0x632a89eceb9ea8e72c828627a423f585a470cf6e70fefa683e2fd0b6a5d07cc8dceb593c436153d4bb099b0f6c623566c7688bf9e878b080c5d223a38be8ec9,0x128610dc5b7ed3e03a713807b9b4c648e868e88a94cf3e3b5f7dd14c55cb8985);
(false,0x71731da3e2b89e406b956900628bda1d43dcd31a7db951c31e48ba155e1c9be,0x25957f275e3f05b503ddffa52a6e875532d419c535203e5b538f1694b6c5e567);
(true,0x5848e0ea43a029359645b0383e09d5b043d343daf68773c6893947290372a9e73540f88d32b13bce16b03913a295ee9efeafd4af469212784260c93c3a7c5b5,0x1ccd572edf203b13206620b21f5410670bcb1c62385da5fdc19ced97bc8090d1);
(true,0x33d8fc6ff914ac7a5eda09687e93a629a6a2ff0dc3773b8471f7c0726bc463b35108fcb1a9e549c71eef6026cea75359ef7a0615d47f380351fa568fa21ab37,0x2e094b15e4f2beb17fb61c51e5715a69047e4395a37b3af82349289e2faf1883);
(false,0x2bcba1e6e5ed07e4157a4fde69263a806af3fd1400a5766d01b8932e7edaa527,0x17fa36a37d191f317e52b73e143be8642f96f389fce7ae9cbe33bc9874b37a38);
(false,0xbe163b105eba5381241f93f8e8f5aee2c93338d614aa991f9e0ee671bee1c27,0x141a9bc59ece59225e49063148bc8c191408b10df34db1dbdeea537348e9126f);
(true,0x1942b1ae3bd66b325beb9387dfe3d756596d5b512e2de1ca3114b9f90db63de31c5acf908af8166398e5804ca9d6840de63e0b7c348493fc885576879433c0d,0x19a2d7f2e79e3347b1fb09fd4349a25197100acef10bb02a721aa69512685529);
(false,0xd94bd55d24fd4d7683a01cfac1895f1586d8b31a673192dca2e3daf9efda4df,0x1a1d15869be48e58d1020695df130da5b90c7037ae32070078b45341495723b8);
(false,0xe17765d6db3dcee4281569270395628e4e4ed21656c525c7a5bf03957134da5,0x2490291fccf215b183d1f0bf0b110511ae53a6d05f6ad7669b4699782e093a7d);
(true,0x538dcbf3c05da0b266e2c9bad8927b66f2d5df3a43d9b2a93b48c62b7dda0541a12d83ac0248e6866bbaff63e42827a7d8ae110ecce7df6608b131bc6f4d603,0x219890cea9ab3a46bc42b668e90d96ac437109f314658237a06aec4c9039598f);
(true,0x468b0418f10c611921da559fd918ed19ec425452e4721da8a96f75942e0a33eec349f4d1bd4c79c8be29b9a22a1eb7892f307b3fdfed9c3c2b74ba04657e6c1,0x73f839b4db4e5fc4026ac15ca26bd16c330dd36f3973552519543ea4c74103d);
(true,0x3488f48858735b51aeabbd1ea909e966a3ba259525d288acdb9e75d386827f9b0e59d412ed82ad221ff28434b9623686a26b91293b50ea60b50e946921b785,0x20658a426e9500409b2777651f9f3b6bc1dee670e97c71a21747724e1fdf6a81);
(false,0x15b03c8a39437bdaaa7c0d974000ed4c7eae8b3a97201694fe691f70561b7002,0x3bc421f20e600c2669902feb8c065b4ed4b1176fdfb22d5565e582906c70a73);
(true,0xdf3fde991c695404101a014051d3c4b411be22daaee47d54c60556d0d09c679a553c22e964df2e117d9ffb8154402371d8334f33e62ec8c726e4861ba4b56,0x3c2296ea11307ca1b584dd35dc9a586a96f3c69e8cc2f26cb5bc8674dd7cb0a);
(true,0xe203b6a27326d7527e3510fff433ca04077b4740ef4eabc2dc5fdf108ae55d0405fac9e90eac91a5641230f2c202816552f3cee7f80582bdee9f8ae469892,0x29c2d261080c211478a8b7ebfead84588dc27fa211ac4b6775ae5fc601b4c412);
(true,0x6cffba69c876af5b16454bcfc98461b30efa40b831fbb2c3ca4039a37980f1442a291f0a42485d9e0904e2309666d286988470354a1e88fbd490005cd3e18b7,0x1efc0f12a1c99ff7a3b0df06c8c6d4d507ac04f2a7cd70d7b8e10978dd09144f);
(false,0x13d6c93b2a7b3fa79cb85ca84e89734c08af236106fff7ee35189c3a279b726e,0x236964db065aa5c75742f7a26d6462541f03aa5b5d5273ae942822e0fbaefddf);
(true,0x4e5fcf7c723d80b3025a3bf7eccd5001676fa4e3ae4b48ff112d3babc1ca2f4fe045a50cab36aaaabb65eb19e5c2484503fd8dac31c3aeb7afe9d16eed1c154,0x16b0014b213f42f0ced69c823269e5131172bfaf49b7e4e822f0fac65c73cbf8);
(false,0xaa2f6fed6e762c4453b670b03f7ae288c56205d25a94a8308cacac5149604a7,0x989a1e1eeb177e1e0b349febd3d001fd682173f86a2c5b4bc1c09a9023aeaef);
(false,0x1e139b832901c1273e47bb45046b8628d8bf35983ce19ef70217ce04497f41f,0xa76d57c70db70249d8af35e62229bb8651b60e6b7dcace5d3f7528d6e7a7388);
(true,0x6d7fd739917f58ed0266f6abe32e93dcdffd7f924331c8b782fe125f76397236a7d2a1339275721822c8d583960e5e6d96a09d1d98ced3c42ea31cf270f1ce,0x1e5631c2e329372ba9982c32f54655027605c36d85e30844ee335c3bd8af8ade);
(false,0x13049af8edf4ef9d884365e230a3c831afa81f6c8a31ee981cdbdb0c2b312a4c,0xfef43ca7dbb48ef2e6ae8db8e6b52b21ac3d238859bcd3686efe3f198984170);
(true,0xfde99160c65438e785ece6f0c88848a734694b7c51301c65b431b58ad5257d3b72a6e90de9a5cc76824a9b8102a0c6ad88ad38c74a394ede106263240240d6,0x8056299dd5b9f9d6a15d71916c833d0291ce46ab6aebb0b62ff9ed875de0aa6);
(false,0x1545a3b0d7e6267faae2119c5600462d05646fb0a004086e41882caedeb0cb9,0x506c185c1c6635751647b4d2a16366c10426c54bc5c06a816eee8caafa0755);
(true,0x1943bcde21c93e1ddf5a8259ed5ee33733ab07bcdcce3db5beae0e8ed493989b4ee2c2d2c9b50acd0abd3181adece41ee9c3b6be8caaf4be20cecb7b9eab,0x2459388bd2b6ee5d92354205d6700d6df02bc88061f7979e5109f5dae9f9ebb7);
(true,0x52936ffb0f96eca968f0ef6edf43ff22e9e580028dac323185b1422b6b28980604c2e0d8466d25bf89ce4e55c241a4bb53f27ff1b2e0dc0726d84a022fab40e,0x249ffd0849b55050bf2ace93d9537214fba16c4faeb866e0569d21aefb51eea2);
(false,0x1bb823e05648ffb72ea7b8b668c0be33023cd10673c2fade6bfadbb35f25bf18,0x3050e3d6b64609771fc248d830525b488ab97aa301e254444eb73d060c02e6dc);
(false,0x303d8104ec15c8ed1f0665e5f70949f012d7bb247240313904f32e2b1b4eefd4,0x18f72402fea32542461ce56140cbe1b80c2dd368eb846da372d1273c6b070544);
(true,0x26f45571296cd752d58156e11bb0ce418f0ad7ddff2f52f09312051f49d9b267ff4ede5cf98933098003b08256b10200192ce4dad7dd88e32f1428223f96450,0x16811b8718c72fa00b28483530ecb568338527b2c7cd5482815c0e4d51d15a10);
(false,0xa772b20a66af62e351848d560fdd398b3f1f0d510041d74d71c749669f57224,0x10f6979496e1bd54908ff8378658ab8a7a2496987da2581df0d2d19af7f0504);
(false,0x5f24023c84aeafe08b8552395fcc63c0765f155910cdbf94d03a9746384a3,0x70cbcd05ba931ca53b0978e97ee05dfc77cb621ae3d23a5aa8fec84096e47db);
(false,0x106ea5d74d973a1f658103ab5a09b887682a4d0dc9c88cfd54abbc869205b09,0x1836c5ef860754200b052e880124fc95e59cb8c04708ce4de872b6ab681210da);
(true,0x24a50d503386f404ee9affaefd0b0e8cf09b155c2db08b2bb60261b5e0bddc3476c314244df05585a6cd288cf2c21bce38764efcb406f35ddaa7a5bbc5409b2,0x7cb3907a1aa12cf597c5a8c553daf2d3b8b814fe1b084a4b00795dabe19c932);
(true,0x3cbe71e9a616f92581720157ab149e851673de52d8dff251886968c37e5d34f166f9e22d86933a17964d1e1e7559a7b5a7a79693a841cc893f06e3151215d1,0x2139e3126a83f9bbae0622c5b3e051673257ce37c8c257b8dec8f0a24dacc219);
(true,0x44ff9a1a7131f60cc34978ec4c140e0e90b1b35568bd2013bf7473a15e426fafca75dda08a8af797fb8ce4fc6d5d537721408c93da7fb117088d6824b5423bb,0x2b92e0816e53c32b7e90f3472324a8fe6b90bb4bc800c69e09592305e0c12b27);
(false,0x273c40b07dc7ce7b1ffae1c66b3eed8b6032cacc809d225f1a25ddc02b376f48,0x2c4dc40fa2fb5162f733874ba31d67fd3875412e7a67469a12f6e6dbebda1af9);
(false,0x288fa292515d6d3f27bff0f27af3ba697371d52ecc8fb2cdda5ef084a0bb4b07,0x2d239be966bce2511329d8b5e14658ae8cfebae855a0894a1593c91b2c6fcc40);
(false,0x2a1ae1ee7f60bd9d5184177b48e48642a75d4d39a84eccdcf49cfa6f11c05b13,0xcf3b9bb6a6311348eeec806f0573a39b2fab0af4b4dcd177901dd8996e706bb);
(false,0x37773e28d312e25255bd0dcdb989f7aabe563fdd37407962a09523c095aa7ec,0x29a9af54c1ff77f266ad43ee3117397b6934d3c2d9445c388659f6c0a33e7e25);
(true,0x6c7caa21c20f5032b9661c5ecb78b173ced7eb6f5f42ce5187317014e1a3c601d70cdc2f7b0363cd9155f06bcbd11d7fe00103d60a8b1f87feb62f9fc706e15,0xad56d9fa8b1b52187c626445383d4bb6869b81fcb492acfdfb5439c6669c7d1);
(false,0x26ce67ec79827b329808031b0f9918ccde892057f316942fd6b290fb47cc590,0x8b0a9df4fc5430946592559a179d3e40da45c35862924007f100d6c81ce7db1);
(true,0x4b8487f8c29d8b462ead532f343385433169a6e708fee476ac8cc7b3910507d358987be1cf24951a72548fd0eb25eab3cea3b36f83715a87dcedd32816fc71,0x231efc6e9f02a2ecdb5c436df0aa2d8e3229b0dcf52f88467f94ef40a6a6966d);
(true,0x4d17cc66251f6052d493de3317dfe9afd0fdc40255ade73ec51484562d6e43b7e04c636be56701cb3c98889aa623f07aa5a1e2cf26bcdf0d89eba61d736e4a6,0x2eae5b089ea3bb997a7f7a16bf8d8b070dfea0c3c18bdbb2b9b079b1a3e690da);
(true,0x8831f76f9199f10e091b0224ea7fdfd9113cd0a55cbda068c8b9afc8cb92705475e59a0a09c9845e3c38629f4713ce3dedc47196e0df8a88ff04b8c6fb03778,0x2ae6b24ea8f540265b739e2b2c396629bbc224d6949695dff16e1e163e8c6948);
(false,0x2608921fa45e8a1ac4969c96cbdc36b55082f87a91d4551d24a1dc02076eaef2,0x5033fb07ca29d869dc9c1683e0e03a10e5dd22315e4a83c99f4e474d23c7522);
(false,0x84ed0b4da72f50ad6d033acf90837c33818c329bef222599eb673cd7903d01,0x269dd1c6ed8ac332f3dbdc3fab0ef8ce68a492cf3383c351e0594aed2bc1303d);
(true,0x5d33b92086af8976eadbeb0a1e39281f4bb68d5aa117b552599b8dafee0f46b5dd4e11ed78b88332860a2e103b0ecc8b066f126329a5379f35981379b7a4e1f,0x2fc34ad53206157019cfc98697fbef377c39784b4b51e28944b61c70b17473cb);
(true,0x8e94a755f08639b9e8c7a8850432b4412d4b1d7de58d4f42429da51dcd6af6b981fcf3d7fcccc6179b16062c0de45ca50bf6c1834ed93c76d8c0fa4e217adeb,0xc40051fbb2d202b1415ca0c82fb7912d1a4f208083809f579746f93e1a663f7);
(false,0x319dcffab0357a38e19395ee349d21047367d0fe2cd746642825ed1fae095b0,0x23d223f24e6a3ce6a091b0e04db735981271a7a23a433596921af6266fe48481);
(true,0x50322534005d9bc5fce6285f6620206e817a6b821bf9ba886939a6ca945bc36556646c5482b3a602b0d8298a983824dd7ea254bd7cd151a8a05ab5feb437b2d,0x12e73b908b4388df0513d25eb82eacce5005ba5d5c9ea45dae8273f58c2abec9);
(false,0x762585088c345a2bcc8192811bb3f31c6e3b9a9feb095376077c8459e545bb5,0x4415426cb6d576d9c594faa1eddec4479188308440d0f427ca075f5946fa99e);
(true,0x121b4d0db833a29a08aa58334e5e6fc700041f923763e0c7ed377c1ced58a387eca573c53b4ceb6f9c1610d438025cf3b0abcb7d4f20930795c23cae4c1431,0x1f22fa439a46ea542141185020bbee5c3d1858110e1f4336fcaa2e0207c8c479);
(true,0x3c97d63cdfa42c33e2af7bc9d47d8d061e756336f2aacaf6fa84f4fb4cebe83229b3507edceb56cac0fb7a039193a5c49f3ce173e3cb3b595d5b48f8574a5bf,0xc2e951f0761697638c22410077593498af3960d33eaa7d67b10f0456284030b);
(true,0x946674d6b4eb3f2a603aafc198eae055140a3904745a03e7e75ebcb42b48c1b3f8709638742dfd8681e8d1d300b47c09b6bce4096be41e91df9a08110c4363,0xd41418a2f4ff4d4243fa6a042eb9aded3facccb9a836ac60f7cb8a17a2fb5af);
(true,0xafb14a61c19c1584af033d35cdc38025027e02726f9f52285eecbc209c19cb7baef8f870c9562b5c2233580bb90d42d0570eb7beb8a4a70adb61eff537b47a,0x2e27d3c2b5a5363e3f194ba992088f72e5e065dbe052c6a225dd947bb5739bee);
(false,0x2c05cd8c9a3023761d07cc2e0a619e5e3df25d3c02d7149891121776aaf3957e,0x26a282428164680d8c9ed1acbb40e89ae28ad004a4d253aad58ed799257a1552);
(true,0x5d4a5d4dcdd2ea8a9bee14d91a4bccf5c629c106e4eff8adcd7c9f9038c3fbb9244e5cfa32fc69267d9416238c0976d532cb0e234a162b49949942560697f04,0x5796fc3dce516fdb950b8a27054321bce6fadb30ff6f3fe0805931c412dcff4);
(true,0x1df7f87e9332de92a1ef476d887d7fcb2e432d294989fdb2448526c85a16ce08cfdf7eb438a08f8fddd8a26957eabcc9948db07f5ac008250626c66a1944b6,0x122fd1c7cab26e38e80763c6afc4266643d45078c1b6a4b1fd103916caae89c6);
(false,0x6d5c47490ed811d26c7d7d81c33f5c0fddab2318b02834f333954733bbe6a9a,0xb146f40f12b2793c0fb060f0b9b1ba97181e6800510346c15127909b78bc26e);
(true,0x7ac3312738c5c1c6c3ecc2ed3708033c48a57ec786af5282be1052a6a5ac126ad41c7bcfdcde9e5216578ac4debefb6455170d2925279942414156517d3a79,0x154b65314421d19d01963cc9141f9804d34bfe9e44822baf010909c7dc92d581);
(false,0x95eda0c0252d74fa85a93770c99ddfb63d1d5c0a9fd5cdfbbc00f4e6cd19583,0x2545c179ed7ff78f7d89bcac4b40a037fc461a013a620cb72f10ea83aedcfcac);
(false,0x1cb547114139ad66259cb7587c13ae5dcf172f913e670c4bfb0889e8a010dd44,0x281172bf5bc4a0eb2e00bab17c4d05918df75f31a2d4831b72ad11db74b981b4);
(false,0x212d1c0e20ff3b15fe06bfe1525a8787e6a7efe288450392c103ffa692b0fa57,0xd90209ba6bb92a4341c559e54a4cad0655f55d9176e227e3be97757973d7d6f);
(false,0x3cd26276d2bd0a34350ec8d5a2af696358f78226f703e0a6c01228b4a4c3b5c,0xe0ec5b057710a9b8d63f460f5b2e13a2bd553119628ca8c69b01636a3fd339d);
(true,0xc59e798182cd92801a6a47ace4f7921c9297b333cd321841ba41e67988f9b832f46d4d16e8f4715a8217f0c1f1d80abc1be45290f171fb4e7a9f39ae58c6fb,0x139831464812da3b344e22c05258794ca14bc23e5043a8727df56736a46431c7);
(true,0x17ff1cafba45daaa636547d0c6bbd139d0333fb3ff0eda4bb6f206847551b6ed912d1888986e4ae11d9ab8f474f8a3da1c28d4e67371cb91edb1383b401b2e0,0x249b315acb25ce3c40bf8ff9072195c23fedcc28cb7a4a73767ac923845c3fe4);
(true,0x53c03f6569883c09fe956460f9e30b51f51e3301869fb45e2d228a05675a14712108a4a8b52a5fb3c4f5a3ec75107c987d263875e80aab647d71e744b1394de,0x115b164b198ec9317396abd660f81b2a55850c244dd8b39e5926d5ba5479f0ae);
(false,0x639854d04fdce0a3ca22e8c60a71d623f3ccef6eb21a6678c24372c75e474a4,0x24cab4cc6f64a00b9b7c04585d37db53175b64f1694af7b23bbbb7dd3db048c8);
(false,0x1bf8f2e03877cc001af4619392d8bdcfa6304182d4e175643f4c8618622eae71,0x13d086ae7947e83ce50ead72ca811e5d30f9aac05235684b268a1016439d0de9);
(false,0x81d002d4329194bd74406a81f166e27027eeb2d11b623a8362784bd390f5739,0x1a3f1ea9d2f93f2d6ccd243c8fe349c15a9cc47cb1846fd4e8b507e2b27af842);
(false,0xe3c4a04f6ab5ef18e65a71d5b7a77c2e195194160ae16f7dd0f5dd91fc54d80,0xc8112be9e0e5ac97fc7e78a473803897906c05f0834c8798c220b420057f284);
(true,0x9c5ad5c44bff2366b6571ce14b322c8510e375ab8d0f3006f4edf0207170f67ccb512becf7ffc4c28b48fd3cdb87f55184031030416d05b03919b7bac9f292,0xe7b7d0d2bd848fa93c3542a0a3003ba5ac94939cabba505734d6ed6642b93c2);
(false,0x4558d535ab493d86f4508985b024210ea4340240c812bfe1360f69ef38772c2,0x4559991e39984458549c6bb357d08d019d5765786e41cfbaafe2354db81d136);
(false,0x63628fb1e5a295d3cd9c33d0a949f8cd83a8121112e6f1c0c50c180bc09d5a,0x15ade36aa020c2a25f120181f88466e1060ac096a5cd4946b2c05b2221dfa16e);
(false,0x9b6513aba954a32e1ead5d966fb6470a49e68703d7c11df628377c0c9295864,0x2dfd2be64f12ed5c072907cee4da973cd425be0e4f319525d05627b8282d3388);
(true,0x842fbcec48c209e0c96af81db2e94cce0e3d5836b70f5e5ced6742702da505ae0fcdbe4c0998cc8d2f3cf999cb275204d9a7faa9d67d0345d85dc93a7a618df,0x71b0933781d8593f68150d0026709242af3c27e7e9e3bdfef51caaefbc9e827);
(true,0x327d5bc1c19c536c34629dfb891ffed0e5716a4e75319cbd2561e4f32651a6817b5a59b2c5eacd68b32ae2cbb02655b0ee62a5af7c826839d5d7742da30ea4,0x5d806301ba260ba6cc444b6c20f3002145b77fbc5ad1adde07222aa73aa5d88);
(false,0xb4a94f0f4f5cf172455794115790644fe564210589f0f258f636d44a02082c,0x179631b31d42b174ee99561dd780b3d6ffa232ed6b0810a9e49b845aecd8580c);
(true,0x22c550c76ce54906e72439b1e74314a515991de2b36c9708f9f700a957de58cb659e90154d6237fff6183bcf4d4b5388efd0ac5bae74a34ba308899c106f31c,0x1393b6689c461cf4a8073943907c23063be0362164387302c181c4bb90ff5d7c);
(false,0x7eb7f67b6145628d6b86fe735146681bb62530aa86353307cf34db6e73e5a91,0xfc05f40309318b90b2a21e4bdc192c460d1c2e5401f774a0350b7b7e722e8d9);
(false,0x52087b1b3881aa0aa9e1c12a76e700d1f6b68c1c43b45e2002716951035faec,0x1fe8ed2f842e4b551f695470c55f442b11d5b3b4c746ba41d1b88eb6c92a347d);
(true,0x3fa3d6043e3cdb6ac9f7cd5dc5f83ad14ecdc8d385d7fafe484f2713f1b24e001b6a14b1186362b23a58cdb886d225de50c9ce2a54fdc5ed8a5a6c222516b44,0x2d2b7c254f60c6acb0191dfac9fda8eb79e4a03214b8fd7bd57c86d810ac4788);
(false,0x2a2994a22cd02831b6cc6d968bf5901d6f9aabdff10abdb7a04142a20b14bf2c,0x221e4083ddd7e834a95ef46466821b0fe7f4b0f6464ae8aca7d2155ae5bd370c);
(true,0x48c0cb636178b2128a562c38ba4d4f5bb3f9859f4cb22091b70122623f2a4fc6ff3263442b73146fca3d16a3c28711d465f8863ba6a5f8d6daa9b45d496700b,0x2768ec12fda550782167fbf691a7e9a34b2ff45c53961843ef63c65a85d12433);
(true,0x61122ee726979e76eb5cd8c8a137228230792a56244f7ca7a688654b551f52def8a39ee03226e1b6de257e2cd6f87100271e08be37f8af3dbc8da651a5259e3,0x140ec87d6cf0a5109d86a0fbf186725d1837edd279d96f2bd271ae52a9e852ef);
(false,0x8504c1683c71769d5927dddfd27d2b9bcaebbad91865e7acbdca3dfcf68295c,0x11f0759455eb0d37c532b22c9b28cbecb1030a5b58ac156518b4bb23daba969d);
(false,0x6a6778a8580477c3027a9ba30cd91f4d808b62597669ff248bd36841fc83b65,0x378ed3d07f7ca6f7a77be72dbf3fb6615fb146f611ba309fc3d7d9ae8991246);
(false,0x3fc903605aea57fa42a26cfa2da31e8a25fa68db0bed998eea6cd8f845844f,0x1504f09c6a203d2fbb8a89d5e2bd1b36a1bcfb6b088c0de129560b3b6bac263b);
(false,0x9213edc2d131ad8114541244779ac7ec87b439c0fbd17db1d6d0f1e77804ed5,0x14bde814b32665f62102f34d75f66eeeef3745dd9197f16e00065865dd533386);
(false,0x8e3f1fec20454ab7de18c33d975e2a55703f188f12fe87e14e3617a3b3bba57,0x5eef78bd124165346adb3fffe1c1042c23cc6a522cb2dccb53506a9b0660103);
(false,0xba3ebb33b7550026df1e784feafd5f116658adfb97dba24ea863db16535057,0x29d64fd476262c5538f85fbeff0b9722ac79869b66033b6d7333158d14bfc2e8);
(false,0x242b99f5204765da26bdef76145b4d96c07fffa4cd856d6330dc32825f25daf0,0x207643d2bfc7fba01c4f20a560c65775f5cacb2e672cb9b049ee57c7517589b0);
(true,0x41dc7974832c925e028884d620c5e12ccf372e38ca02e433a486ce82f9fe29e64fc0f4a289c1b1e2e067d8d75f1bf981512a1b259f3d7d15689a646796cc547,0x2a60e1a5c78dfbfee32d3f61dc683e8c22fa5be7a17fe379929db9e5d81cc24f);
(false,0x251cc08984ab7e7879135e22d0c4d64c83b45a977572af24635b46183cd3b95f,0x49f1d8b081517aebb0df888be0863a5ff1e8a3d4f16d13be87f88055d48808);
(true,0x155bd20e5d7e476f6b6c771bd39dc7e07f37cf1c66cc2efbd764b0cfc67e1c192ddf3f2a9e7aff9edb7d84bd86dccec3c89a3da486279533ebe7132c21d6,0x18f11cab1ea3e00980ffaaac2a57068eea9a0f23af00963421b6cc271bab70a6);
(true,0x26e187713244ba365af03b32d6288062d96e3b70ccf8b80b9df0b999e5f13b69232b8dfe7f6ebe8b21a37b0ef20df4f9e8f6a1f4594f3f874037ffe1da60cdc,0x4f8fd14239ec43425d3799aba2fd799f6c0d6d508a51b55b9de16f5a27fae8c);
(true,0x18ba13f252c9bb2bca6c8f62177873d14029ee258596fff84511912e1716dcf531eddeaec0e23bf5ad46ebaf247bbb3c74047d45be56ef16b4e6f9bad91df0,0x2ca0b9ca7e6366fbe7c212882d64015b0d527db1533672980a51b0c29fbe68b0);
(false,0x29281801a75e2d158b2ddab83a53e687c4cb703003efe35514c2a7899f65854c,0x26b2725028c73ed03820f4218d2621fafc9b9ec9fdce05bc37c1628af55b64ec);
(true,0x5d97652f69f5924212f6921ab4125dd327f033cfb73582083007877c1f3f0f3c03d627a6d729acb857b87ca5ac6d7c3a1c0e11c2e4b994080dc848339a66079,0x25e5dc51e0a3349a762095a15a8f99c4c815b086e306d12703a002550d1e43b1);
(false,0x1dadfac6dc94480c33718f30a746ecb726d9651be045ae6077de71745a8dc114,0x389a244f95b6ea4e8f46f7c89f55ef074b4dfc9fcfaae9b9d3959f04e90cfd5);
(true,0xc83ccb28666a16d758c9203b782b1fa7f23007f653c3ab8787e97404931e0599151540f3a99452edc56765566b12016d345e60c18caeacc3e4a746b4cf82e,0x2f9242c0cf266ec551030116a8726027986ccaa3cd1de81dd6f2f4107e6b7562);
(true,0x8d7081301646089ff32947acc4884f7309b7a4b7fe013978a0f6b09e4d7f5b5c4dd33508f83fab65ca6499b764c07958a1cb18ac0f4500771e43ba0afa65725,0x25920aa742874dbee9825a369c238578e24eae5d7fd74e23be704bb9d6c2fecd);
(false,0x1d2b42f5bb6a34b6f985224e4163c9d55a62790250320c4600aeed208baa21ad,0x302a4656a0db3b6a059750cf59eb16d2f511bd6a1e124c1f6b895711c10c202e);
(false,0x2ff083d1e3719d27f0e78581f89427092a005489919bb15173ccd6b0254e3260,0x11391428128b2280e29c72f3bab921c21a14f795f6f51212693e52da5d62afa4);
(true,0x128a1674de505b605b479176eaa5168258a60a415b6552e503b0a8b5ebbc50156ff3bde5f56ba84ecae6a02dd4d62063ca3d8433753487a42da1c48bfd21824,0x125b4d6426279a1a012e8a2cf610514121628f87bdc6a23aaef30c7ff60b5244);
(false,0x6f69a92f2c84f63c549c34871b278d71b187eac8b061f5075f504be5e55a5ab,0x13a5372a2e1a3bccbccf8557885a3f0a961f09c8045c71ec34bb981586f8b0a3);
(false,0x7f9af21e1a02c8327bec274cae2ec79f2ed7121bd0f0dd939aa36289e59fd67,0xb69094e391cc7ddb840b6d4e0de854bbd91cc5f2e18b1dca9a5ef3cd9687538);
(true,0x8231e55b69eab3e20beb1a2ad58b9592b097029fef24cee3f03e09f7f2a0cfd03af5e78f4551767cf73e7f85de493a340ac5a57cf4ce5df06d921a127c89e8,0x1665c6938884d3ab1709627aa6214097e3962d177f95d1fad5fb0c217d16b9a8);
(false,0xa5dcec8bddbe5b1e6fc82951ba7057fa13559d24dfafe645e3ba6b319c8a335,0xea57f49ca0fed0930e1c30f438aef01b0ea73b487f03c3687e7cb0949e7998d);
(false,0x46ed6b41d371a09e71144ce67f414f6efa45fe7d3388c8ff6b6a5aec745e095,0x1e3dd3b3cf5b4c04f00b13efafceb9a4fe5e2516dcfb007e6af65e750f0f4d56);
(true,0x3928c8cb75c1d6f838e360cbe10b9c28557e4871e9eb96f95215808be1199800494aa8c260381ed6386bf2050f2cf1e3a17a76a144be7731a0a63226884f12b,0x2f93fc43f2919107b78e0368d81a35fb0f08e9109065ccaf5c71fc7e46b88ea3);
(false,0x2ec72ae119dfccca925299b7a23c3516dcfc01a0a21a541d64ab49fc6da509f4,0x15da0a0da05556faa112eac53f3b53e1b3e18a99ff1d41c6fb641ed547fd551d);
(false,0x9de088a5e669bded7d690ac08aed821fea541117871454b3ae23f395edf0d04,0xba3285200bf1afcecfb977838a58ebcee852a463ed6d34cf48e3d1ffff4b52d);
(false,0x2cc6e98ea32f93c6b21b35640444188610d325b3a29de986c2db0a2c1e3559f,0x2dd9bac3739dbd69dd5d134eab220a341b6e78e4ec39cc1b6289dcf87151c7d0);
(false,0x2b7151659b1bfcbeca9979955ecd3248b5fe3b117c1560cd1b88a4b406f4b2cf,0x23eeaf8768ec29c2410e833ad8121103541e9355e35eac3ac93bef88a6bcde97);
(false,0x1aae4c25948c6982508fcee99b15f54f46e5b1f01539d55345a3020fd7c7f691,0x2b717c4e4a189c2306fec88dda911b1f4f1baaa75d2e04a9795afa7245f38dda);
(true,0x75f5211465d9de6aef9150db00aa66d4427847eec6cb8990667f55fe750f825daa8579ecf938e2a9958620e159c5c484524455cd83f35492460f05d39793c44,0x12b125c8335c006cb2f220c38f8a69f86c675d6868d80a46747a1819fcab08b4);
(false,0x73853a1dd4d7b443fc55bdc874a866ec6704e91d746acbe64df8cb898161dc0,0x14f65b48a4662628b1257a635389fa228fd6da0d0308da521c0046be8e3abe50);
(true,0x1b76b56e9d8a3c5340bbda1971edb40f72737b1634f36a0e7c8a571946a0622af1313ac216ef681683dfdd89958fdd3408b47ab107c41d705ac2739b3681588,0x1eaadc76fc55ac78f1fd00e0916919d8db5a32c629a7905045ba55738d114348);
(false,0x136f56ba310ee9c2f3a4425c49d2841bab8d5c6d9f2b7eae7da7b5f211446ac1,0x5cfb05bf5703fe9c45947410de3d8688ce60c3d44c408bda403c6f75c486bb9);
(false,0xb2a760c46a8beee79bc0b1fbd6c86f0eae65ace6fa6373b581425ee5c5e824,0x3fbad079b4fc235e179ae31e7250912925ede50448341c70e3f10ae9ba535b5);
(true,0xfdd7aef81b517c2041e683afd51166bd33af5d478ac1b778ab03726dd9e1c03977b92c51ee77b1e75dc1bfd2b0c568480a6386af48e814119168e6270e785,0x244829affb94fe9406e606d74eb8a74db8aed241b99a26c28a98a15b4aab441);
(true,0x5246010f88942f87bb18dd521c7a72b4ac08ca2edcd341e556a5c7b307be8f2df19c6eb18781822dd9f7ed0b9c0c7fe0b65c8b8cdb6247a21acd1f92ebf6d,0x2a7db0fec3ce2aeccaef9f91a2e1f22cbdac2b0494c437a4e8b8b20b757daf09);
(false,0x254f476608f49bbf7a80e4ad239ed224693d44d7005ccef825b926956ba74a8d,0x3f8f3d82bb37f8b76c6208f28b324f8bca4254ae3d79d40b39b7f965c184836);
(true,0xfc7d06c1efa44ed7e8e2b76f41aa2a347aee985c7b324cefec66af9cfb92609ae7789704ceb0488981ab1e03b7d0f37aac491c1987af0a332fbfde177b079,0x11b5209b5058d10970eae8b080d4efe4531be0bba0c7df784531c42e49f0d401);
(false,0x67ac2e6f7dd2aef0be3e4ebbf627a80941f92f91f2ba9530632df1ab9d27e1f,0x8ea821e24031fe659c954afbd0f19435b028f614e4b521a65a642baf4680a68);
(true,0x4f7ef4037ca7d458eb0789dee939efab13e21b52dc0297e92b39ecf9d3c2e503e0aa98f4a1618cf1935781db0f4ff5bde266ec0fe201e1d33ae9d5f82b039d,0x265f91e090802943a4575af26ba4a6923d24b721599a9e49228fa414fc98cf75);
(false,0x1e6dcec20be6669992350c47bc14106502c991ebfc42c8578fef916171923f15,0x168ed6ccbffe3ce8c5ccb7e8d0e228e1124f777352d7e58e36cb96cb0cfb2ba6);
(false,0xa83f4894bdc1c1912050069a5026fea3fa229d2bab73e40341479b26babda54,0x10ec77ab7907aa5375262d36e136332e149f0d4d44a5042acd875438dad69e58);
(true,0x11e69624b38f8cc825425afdf00e0a59bd6cab59929682ab05dd40af7d21129ad0c318e48c7a3ee58a9e29fc24f178e4d1451aae520cbe179ecfeb10a961a06,0x2e30cdbd4038767a19a044e3ec77ef7f291d6c6e8e558534b282dba8f936a356);
(true,0x855933dcf650482a039f9e15c7eaabb09e72cdb3ca25c94306821660c6ded7e8ca4fa6ee99feaf9c0efd24d8b11f9e26f10be161ee58afde39226b5ea292903,0x3e5ceb47b363a0ff7ee799e09f02b9852bac8503824cc5215b5166e00adb9bb);
(true,0xf3123b0aea9e90561a83fa035c5c049bfbb474657540fdd5036076c3771ddb08b35771dc9fb0808135e47fee4930cc79d35474e32f0f7a839f14e19550e50,0x10b83a8d55b10dca40047f760ab48f3871dfe9900c0fc0d2946a40e990380d74);
(false,0x5c6d7c24ab7001d40385d2a1d0a8f04158a2eb2ac02fe181caf4eea70080ed7,0x1ecd814372e2b4ff5c4431f5b2f38562ce4aa48ed3b41ca29cb119ecc26a63ef);
(false,0x139b5867976eb48342a0cd3564b1b82a07b6aa0293f8470b1158d8ebf851712d,0x1634b7f1517eac0d81814ba0a662b8a6342aabeb5284b17ceb75a7abffb2dca6);
(false,0xa30974bf47b1537c0211d3fa723da0b1e9e72241faf4e02cab0bd0c66ef332e,0x1df623ef8af183e446fb76a5e4491ec5a6f43d23bcd213e2);
(false,0x128ceb0c27c96454ee495674c67dded3,0x1df623ef8af183e446fb76a5e4491ec51d2117bb27ffffff);
(true,0x381b0cd5ae5202df73b59da9ccc614027dd16dbf6706b5e4777c4f2c786e2174c2e08a2d7950f7a7121cd2b5c86638a,0x59e26bcea0d48bacd4f263f1acdb5c4f5763473177fffffe);
(false,0xa6f4436d661486fc60940a1afa6cd564,0x30644e72e131a0295e6dd9e7e0acccb0c28f069fbb966e3de4bd44e5607cfd48)
].
Definition cube_r : list (bool * Z * Z) := [
(false,0x0,0x121);
(false,0x0,0x14641);
(false,0x0,0x19fc99c81);
(false,0x0,0x2a34f4831603f7901);
(false,0x0,0x6f56b2f420463eef1a52a8cdf87aff201);
(false,0x100,0x7fe198be95f4b22a7339ce77c392ac608400d82c65b83e4ed822bf7d023e301);
(true,0x167101eed64f4c4e55ca0458bf61cd5c43dafeb1a8732e6982bed20f1967ba6a,0x1f281edd5b1e437fb7d87dc03fbeb30a4ad92aec7a6536a3e41aa79ebb356ba7);
(false,0x140f5def6c6a2cb655c9b8bd1f1b4ffd4c681949a6b4aad09b80b4075c4e24e1,0xd4979b5eee566aa741abb241967b4c7ddbc281ef55e8d020e4261c26e1ce210);
(false,0x3a5f2b5e96ed32d9001cd393c400e127df9c072d5f33009820145284de9efc7,0x17f255628d10f92f3983ff5679143e8054c3af0c3c13c55288f1dd901d365139);
(false,0xbd995f05c09e3b737dddb241861a41ec04babe4568716ff6e55d4b6ea9c2266,0x141c451fe18afb40ae4d8205d332079480ba93d4b935aeaa297d9084bd34fc4b);
(false,0x85b7dfc742f02f8a7566d14bc86bce6491dfe42390d8a19b99010e1523babfa,0x145f65fe0a334fecf498215c95824e43ca02a7ba720bc3c8ce51d02c82e011ff);
(true,0x91ce0b395c52edafc6fe18aac8674f6a2ee6df7e45b6e0b457902c43f9fd48c7,0x1c51f5f29b65f6624fe27b5d72a7eb278c19fed1c68dcf715c4d6932a9c4534a);
(false,0x1092ddd43c72ed5de73862bfd2d8f7bc1056827a2cad9c68795c8417ccdefea1,0x24dd6afe013c1933a2f2d77f6332cbf34e7dec3211aaf9c752712b2d9b8a12c3);
(true,0x1dd6c4dbbcc1f9cab8b7b8fe47619c928784090bf65d0386fb01d396a16281049,0x5043c68cd1810bf55acf338cf010ebc6388458c455c5a7e02c5140ab133f8d0);
(true,0x8d738262db2fe555e962ca9d2de0e50697b6ccc26532e17df5933cf43c5ce68,0x24149e7ce576662a3164176847837cfd4ff268060de0e59ab3dcb39f3c286a98);
(false,0x1ae6bf3bb6301d06b8ec945b03d4cf95916438089c4b22deccde6a01d905c32b,0x2845343adcdc9b8bfd991757f2ebcecd4fb4cce51d8045119e71e77d92dc7715);
(true,0x239b38eda15c85af1c846b21dcaf388f60d8d5a8c7c6e6c5582393d68eb5f9667,0x1b98c93adf55411c8c0aa6214d1586e9f3238f1d38a473a5b3a6fed1d3e56ce2);
(true,0x10b8b3cb401168a905e0b75f5de8dcef565e0f27fda2512644eefd4c0d383bc1d,0x1343d1b86c08a24f94d7a65b7f855d4a4a88f375f58b54aaba472721ed5733a7);
(true,0x82614e512efc6e333a5d915de1097958ac7a456dde208a9f78d97e62b1b2cf03,0x176faed907c16b26125c5d7553c3e3b858d190e6ea3687b71b524e8c991a96fe);
(true,0xc0f434aa769068ada04d2d99846e252c68476e65c88d61d89c61d7b862133b20,0x1a31211a6a996ba1eee15e835c83c187da286d2de4b32ddd0157d77248fda924);
(false,0xe2d20f5b27607a6d9c70423007685b289d2444efc1fe2ecf829abf6ee1f2861,0x24803ebff50db2b548ac3dbb75573e865e4d374b124aacca821be00722c964af);
(true,0x1d40aed52a691d5abf88f25a5f2e863228caafd4596586393326fe5349df22d9f,0xfef468ba897a5b764b38ebcd4d7c74a006269e9ea182c13ee7c7d74f6e7fc12);
(true,0x59331ba7620bdce905d27ff8856766e143ed4e7ff552213a6ffabcaa0cba3d6f,0x1cfe0a09b1ab6af13c91fcab235355f8b888842169c2da6d24ec6b3e6ec4815);
(true,0x12749542fc90e293a54ba0f678ce27791eaf02238341f084b6ee146a05f394d,0x27048fa9277aaecc036ac690a69adbd39a6f804824722b555178454e56e1b3fc);
(true,0x216d06bb6bcd1191f5708d8cc9ea6e4cf508eb3e56a595013bbbb22322d5529b3,0xd75b566dd40a71ffef8df5f45d231c5302a860da41fc97804adcf1b2a53375d);
(false,0x3be6577a6f2ac9339aa3cb7663497547369f6f2e670a6a6a5975b2e42db554f,0x116946d6cec0778ae1e50f983b3cdc35ac2a3434356877314b7cea50236bc27a);
(true,0x6a7f28aea3a60004144e3f71295f31e650b80374731a686d24d21ac7dea9be87,0x111e3e9b3951a09e1f004c83f14601edd2acf93037a096290b62ed762ea185dd);
(true,0x66f1022d156bfe241a995ae67de9ad3be133f9188a9ddae77d9069ee6d1dfcab,0x2aa87f1e5add70477e2c7c6cae23c51bd9f07f5af79b3ab0879683d2747170ae);
(true,0x27f442a294847c7ea7fdf7ce1dce01d4eb871bf77d57d2131b1b968beba3eadb7,0x105dc58127b2cea82c3474464f80332c3d0631e0890dd6496bc400d0c4416ccd);
(false,0x588ff1202ed7d1905f7e2745be1286047473a5b1c66fbdd8ceceb3a277784b7,0x2f755366b4df4b6fe2cd1d0186a0e329d6b49ba30da3a24ed144bcb79ee01772);
(true,0x3173a3d50b94d51d427c93be3dd6429b2d97760d58dea676d9ff2273b55fa60db,0x25f6d21ce36dae218f3cb04568146d2bc138d4d0869bd07ab220a0a836063a29);
(false,0x1dc8913dfe8b765c1848a02931d7754a4697c35279ca11dc15751d489763477a,0x1eda76114c3c9656bf0c591bb065fffb5ca347f9fed3dea0758039271bbf5317);
(false,0x13abda59f6d06b1e76739e0c5273126ae8b64fb03a4d2ab50fbad502ab61f2e2,0x2a505f320c76691f58def312a8c5af32d9fd3f2414f5ebbc71940f0965e7f92f);
(false,0x24ffdba9071900d086f06b51ad510f45175f7ced64e9e109c821bdcdd113e95c,0x5c03e999ad49b4239012d55a14862f3166ac6f9d3d7209417a76fb8aa4a8d45);
(false,0xaef6b5319a715d793245bce344e0218a86854590fcb6678b6f7a7d1d914718,0x1828df8310ca788d606f8f669038b42a267b70a5e151c00cfa448a9a0047cd81);
(false,0xc0fcdadeff6ba566bee0241f344503bb85c3dc4558fbeb80e69535d5b4246ab,0x7494782b4054a61f7326af2298466c0309e093fffb874239a87b688f7439456);
(false,0x118d9d48f9ee6e15e193c1589c3d63002798949c5d4cd412bd57f9cea0bac8c,0x231821189b226f430a06cddecec15c278280114f198a7a6a851cdbb0c4ebe058);
(true,0x1b0a9890ef88aaa435c4da42d5481e3411d918b13e66025c5965b70087e69c5ef,0x1359558e7927c5379d06ef8080d27db237519bc49ba0dcb99d1e32cd3a623c51);
(true,0x838528379a4d17b2c01f48b0a710904657c304be7ceec29144cb1a54d36b6c22,0xc69bf337e50c9de783d39764eeef8895f3d1b548feaf1aa2e31e195406fbf8f);
(false,0x32f212d3c5f6af953eb635de10f2d0cc587a8ce930f3f9b9d83255dcafe9ed0,0x6d026a32bd25e3a439a2fce569836afb4b084637035c1e46af04f54625a1311);
(false,0xf58f26e03939fffb033e30cd0585048a60f40ee95b56bb21b79bcfa9cc286e,0x5097e10bcd53b52f981f5ef85210e906fadb7461232699b16089891a3935eb3);
(true,0x8e9c8c6c006f1f014c55005133e3c8a4b754a64c83bf9153eb830e6b2df3b42,0xf2a39aab50b86004d1d38d99cca805649d14c72993d13317b779016ad59c877);
(false,0x4c09ad3a24664772298d485d4e4d151a5959a954915e9f0fbacd08d97260116,0x4636ce5ddd5772be29d8605e93eb91d48d3b800a3d7241f6165adad9e92263b);
(true,0x6c3e916ae2ed3eaf25b2b0e0097d6a653eda868658aa3a20c5f83ad2c28c956,0x142f1042e5d86110cddbfcb65c024b7d7048c786ef01b5ff9b25bf75f8f1e1d3);
(true,0x8f1d6508ad6f3560d69750bc8a7f94832d321dd1341033bd7917336d871c70f3,0x97c62252f7fc18e2fabf4f48d3fc456e68d3af2525e6d4bd5af7633d7076186);
(true,0x1f9c4a776092fc062427c32e2b4f323b0dc70e887a8ac26ad623edb0bb7fec76,0x4247c778cd96034d80f789ea8cd77babe2414350be50d3137e2cee11aa807ee);
(true,0x60749c4c6f1fca3113d70b6c80dd6ceee2dc71d7b0569d336230b7dd18a8f93,0xeb2ce56bb8a5862e12eecea6f84a48725c2bb18cf638e90bf57f9ee290265f1);
(false,0x476e8bf9996966a155a383ccb0c841b61f792eb2f570b3d6010916891ebc951,0x10f5188940f891904a90a5a2206ca38d49d166da1aed1526db06662170704390);
(false,0x5f133a44374db4dc101ebf78a1d385877ab4d377de3b3f129f45f9e5ef481d7,0x196b09f4eb1427d027ba470500badfb0bf86d5fb0ff55d84a250acac40e02f29);
(false,0xd59dd5c5ea70b64ec802ad3e4dc7535fc77c25659d106f44208fe1f07470fc2,0x11df44c6a923b3e180ee03330fb6c9bac7851aea9c8fc0b9b26effb4292904cf);
(false,0x699becfa81bf14846744082df1b1ce593e779cd3230c5ba39c455064597ebd6,0x244e7ec12264cb598b39e5f2c84f9088d8efc94f452b7bcddebc5333f2cd338b);
(false,0x1b3d52397c859234d84b8ff133a9fe24c63fbdbee8642167ae3a9b9bd5010bd5,0x231fc62e3ec1d8fd08450dd783f8a8e6d9800595939b6b1a40920a4dddfda1a4);
(false,0x197e7a381f4f882f8d5519e63c15c1dfa2969d7231a3c25998b496868b528266,0x21d67f116cd201c230dd4806154c187c3990510f35b256fa7a9f81ade0e52eaa);
(false,0x17a93b54658bf64977cf7b1a7eac26f3e2d539e403ace8bc3d75907599f64011,0x29bcaf4a4e30ee43f88a11f388fb90d0a4dff38845e9be146011c9517aaf48d3);
(false,0x23ff57b2c188eb593f65b5f3ed1392f1dffd08d614e93f917f18c44f07c750f0,0x1dc3f5940d6c3d3ad104824f7d2c84d607c801dd3453b7b848dc2af3b96a0cf9);
(false,0x124efb9ac96f18ed28462999d03e8ba30ad1c96b908e3cbfe057a9931bd28764,0x4a752029de10aa4e005dfb5846bb32bf59ff076fd09487343114c77c509c2cd);
(true,0x79b9319b3c5495a065e58e72a2b292dd1e0cf844d6072119047ce64652c24e3,0xd949f0387b87378fc408235026ab6f492c8f8be4ea7ede3de41c6bf1dceb5d6);
(true,0x40ca6250abf44ce96c5c316567f85669f0d65f4f987d3188ed9c916c5c56bf95,0x165305fafeb1598420b0a591e7c1f6857a2a4496897097b2ab7fefd2ae3e7d8f);
(false,0xa4c7a41cddc29ec24db653f522a57800796f87d5d035d1090890746c1ab3f8a,0x2074636a576612c683b6b7d98ae1df6c5f89712e87119a29abe9e175512db657);
(true,0x172064bd8368153bc1db1475c56a579f54ce7130eecc8143ccb9aa0d3d81b9fd6,0x56c35bd53aebb211b4f7a06a9c90f307158d1fb4201757127e363aed9b74acb);
(true,0xa5485c3861d6c32d2898eefc70b801028f1a1990083d4b6f34b5c8392fad987,0x6c9754e987fd4e38da5d02fbedea21d84bb00b6cae6945a90529c7a858f302);
(true,0x102e87d6a6d3b8187d7967aa7e7fe3ed325e766fb0f65647fd3e1cb95e5119,0x1c7cd0bb16ad6b6c1dd3db6f23b2930f84f8806d6184a4e79afa15e0ef7b3b2b);
(true,0x11d17f57d0869566c5ec7a5ecfe6d6cb31b4884b9f8123c849049459b5c155023,0x1ae58d24d0d9be07610d255451a2dd547ee4e250caad873b1d0ff9fa36d71ca6);
(false,0xef30fe1be63bba2836f72e05c8dee5a133a4c0eab9959aa1eccbefcbedb4c7a,0x186aae4f1b5eb818960aa241af717c48d586ebb100d27617e60052520b2d6f2a);
(true,0xd16fa86112287214ef68bb5aac4ac5929b120066976be3e916103b41c3287aeb,0x2746765e744138e37d7c5070333c56410b202012cc404ae1754d4c74de782639);
(false,0x1fe04b140657217c6fd0accf50b2bd72234d4968350897668809d8419e56823a,0x27995bb6d1a7c40a346c0a3182f079a45b9acfcc3819a788676fdab0b8ce7677);
(false,0x206767f4489a6bd287fbe44c45b339b60b4b834bedffa6f055d4aec747e261f0,0xacbb05b9837f44ddabcd33957b52c6fda4b7735b19df5fdc45f2905a6738961);
(false,0x2688c18ddba3f47a4bd67ee96d461d1acf411edfec62cb8e8238c17ca70173d,0x9da91bc1a7e0f77f861706dc607204662070f828f6ba4ab4e981f30886edf84);
(false,0x201a882cc00f844506b39b317402d8faa9c49989bde3ddaf212defcb109a590,0xa153efd7491520e506b075458ac8b8e92037c4401f962a53992fb1d678d9680);
(false,0x219d510d1db6003e3f9ecc44fa9b49b8fc3e041e01ed508d2fed7c74ba9e8b1,0x226303f88c2bb10976b7fb72c904e1e9c0cd8e0b2108414a605531d9e5d0574f);
(false,0x186f5750822505e960de812cc9f747b897aa41375e1c4031232e755bf6a7f323,0x88a8c6480a37ff64bc23e15f04974a3bac68dc54d399ecbd214a2498d7ed73e);
(true,0x19a0c6854f5290da6daadfe92537bb9125fc6bb275074e4ee6d51f2e3492549d,0x17e065fd861d0af2d712170110b6e99914eaee85c62c444b24ed20949d820ea7);
(true,0xc845a475689b736c61e0fbdf5ac9454967f7d431a9c331e9aeebf2529eb0e184,0x242e13a45433b4670a89886422e93ef39d9d5b0d9aa4cb992a672d4e0ecde7d);
(false,0x1b0cc2e5fd913be5c9adf1865d3cca478a6304fcd4bbc316e4bcfd48f0261b,0x2797f7a9ddee08fdb6186f271abcd9b9b491461410317f7491d49a561ee4e2ee);
(true,0x226b735c8a2e09648b2ae9dcfa750d06006e215bb8415d55185634fb7240ed9f5,0x12ade975b1f73aff24ec2b3d33f743389e0f40199ab3664096a880cd869b8f8f);
(false,0x735d3f29c7ded5796bf4a23353f25fa63483ac28789a36322a37fb931b9a430,0x8d45854f852905c8924502efeba5c227b811905f2e0172393fd62a0a9f16db1);
(true,0x1b631ad79edcc7a164f7749d3f754aac81ce541294e74f8957f8a55c32a46533,0x171446b8928d93c71dfe502159a8a8f12e6b2fc8d08980ec17de1474e9c1153e);
(true,0xbb1e8afcc42f5c5e9fd0391d67a8d3d4620ced86b2d02277274f76f929e2c914,0x217f181cc65ce87c13024668497ec1c5477889f5492098493ad3f4424f502230);
(false,0x172f9de95b29966657fc07a7bdb8679becf22d1b408aff61f634c461efcb6804,0x578898655c7e0093acb9023a2da514fe7d5a3bad88d66d83f4faabd52c560fc);
(false,0x9e55ccf4de5dd6384e08bbcad8e930f35e9e7125ec72fdc1a2490d16788595,0xaf7fdb6fd6324cc39a2e4dc721564f14fea62276187df7add65a90121d727b);
(false,0x27c78e885bb2ec8a96f255af74e305a1bd97e848f7a0a1c6a4f71be444801,0x9369380d444f95a7a05daecb5f7b40758dbbdb0721cbc7d5c1cd56c0cb7f18);
(false,0x1c10afe7ff64564ae8e0a8b05ecb1fc210f7278ae7c5062dfafd6d88d18b6,0x101a44f4c3779be265d7fb2071b59402a7182ddd709862780c225f03569bb98a);
(false,0x55bb489a226e0f5a3e967530dce0b9c010371feaa91b2347df8394655253add,0xa3c528802dd6e24a65b3bd06b1af7638975619c298778616a915642666f8387);
(true,0x24ce12882fe16246884d27319c8366bf4eb8fe08d778c048065e69bd07511182,0x256cd88d9f2befef048fc382b0ed8d40b6d06a98a9d6d3b75e97e12069ab72bf);
(true,0x1ec0b7e04098275108fab7a0e61e6629be6541db87ed45222b1e03dfc842c9d27,0x1b123d5c122d4536b369c92bff4f28a5feb0a9111d97125eb5732e2fe1f6b56a);
(true,0x101734bb32d0429a54f3041fe908e00631f518ed965ba2c58a38e0e19214b347b,0x71675c0560dba62a3970f69100c08d62a80df09291348d956b4bdbbcf6cd9a9);
(true,0x11a5d97afaeff6ccc59022341cd0d973d8438b2cc78888e106b10ef08bd8cbd6,0x2164cc312483830b8757f94d2aadeee17d4166521f178ffe52db681d5c4e3ecb);
(false,0x170b44a15272a814e69bcfa952ad2cca560edcca3caea7ed377a08a6e6af11f1,0x197b11139f98102aa9fdaae41c77d78ac060a628735363938f17632e646be308);
(false,0xd6ab90cecd7878226b8ffda421f81ed240a19f2df69c2f8e1be0379dfc35039,0x89c480868c66c6f97b52a1cf51ae46786643ab23e8eb6fb71a6814b8243e007);
(true,0x1a0b9f863a9fd0a2b0e3d0160475add6cd188f67e8f9ebee93664751bbc8fe74,0xd94fc0f0a0ab8a781e840ed9e17d287185a97dfc3959cfaa028b727e35144cd);
(true,0x40cdda2a6c12c46497f2c2b574eed60cca3ea8b138e2604efe8035b63d10ef3f,0x2ce1344da92b4363693f6c59c876192be113be3fc43934ffeccde87a809f5f7a);
(true,0x2c3950d6c692e752f0c5966aa53fbd098ea1ebe579d7f813c3d702db6ad8206f4,0x1e004c6851ba891f9ef4dce1f492d6339166f9556b12e9f3f3967c3e22222170);
(true,0x13c319647c6c917efa08e35907e6b1e1e0863e7525e596a7c8f97dd016a64247c,0x1a691d0738bcb8d75652751ffddaf246d67751fb27691c19e198e42f5d9afc84);
(false,0xe69fbf0a091ce1d83b56d7e957567e914922278f497f0f27817991dcef5e075,0x75a00840f365825637b15e00c3bdd4e4b8a549e14521b6800bada0a30ee439b);
(false,0x11de8c5918936892db00374dd0e39f96ef4da3ccdf4b18f45fe89fc74d65562,0x2cf45fe6fc924c738897505e3add3837d775f2ceded4e5f808e42fe991382a77);
(false,0x29c2f1948a1440bd1c5ca1c5cee3fa4638abc3ef80d8c47d63efe0e147abceea,0x2ee92761b9b8646f263e40429f72ab809f9263b908c709b918b4f5d0c16f7467);
(false,0x2d799aff13963d03469d7d605f6f6a3d1527f76855ddf058cb3f4796958f69dd,0x1f269cd6a8d5562a4c884e422e47bb02b2206a99f74483e9418e85acaeb01794);
(false,0x140d6ce6e91819f98c2bac8dee65893ecdd907c64e4b1b17f452bec72e3098d7,0x1bbd799114a797ed8c11c81b6bd4b813887466090905b0b52abe7b87df7b54b9);
(false,0xfe6d9c43818e2d5cc7989cab1d1cc110a70b006571a7b1c8e1a466a2510c068,0xd8da1a75999efe3c975e7106b65a82bda14a57a0d20a6cdbc2d3b9f2ebf2d49);
(false,0x3cbc01e10eb51d39f4cb78df88871300050001c765520790b1ae2626d0cd23f,0x9c8d2233447fc392600cc2399e74e65897e4ab77c02d098e1443d0e59e3ec92);
(true,0x21a1bee1ff7dede35df60f25c641083313d5dd890992460d023371c439265e1d,0x15339ca8c739a91c594a50e18f9a0743bbab05709f414846622919eb18fb5967);
(false,0x949f74b9ef4d3ee5442bfc72874d61cdb7b6913880f4722496385e7dd1119dc,0x18c7f7d79ee15a7654be30db424e68dfa7d55b2ce550fd4830c9652ba221ad95);
(false,0xcb0b409b7c1fcee637a6fcf06c806bd12eea17d768e3e541a2fb4b5a06d9ba4,0x60ff7f405a3c5185e2d7e969d009bddd8ecc1bd09b5aea0c851bc6169af1d15);
(false,0xc26d017546f70a0a67818e3427f7a04f377c432276511f7715e68448ff9b29,0x2c9a4d0f957b094697629f75e95c61810f5cc52ad490eb418c83220847042890);
(false,0x291c3f421d452fdf87fd014df7feea3a485e8806955e7e262a5d80bd57d5177c,0xffe2ae658d2fdbd011f0bc903e272634fda2ad34b4899957e94a89b93183984);
(false,0x5491124606414529285903e27b0f54396e36c71e6b4305eda51951ab8809dfb,0x40b482328147a7e848eb452dd8928ca1bfa82786e13d423506a2d9652b6e15);
(false,0x56848b258904209bd646d066f136b52c0d3a2bb2b5864bc600a7bcf69915,0x18fe08cd316303753310f2acbc2cddac2288008261ad991a646d4f9a4f6d74a4);
(false,0xce8502aee9c9905877e41fed37cfe70f43d7e725d05875987b73cfacd6b9bba,0x21b5106773addb600824cb0f083438df9b4db4ca9fffd4de8460bd5293616d56);
(false,0x177a912c2d02d254b42505fc1a3e15f9e39d8e45c12754e4b72c234b371d92ae,0x1121a9ca48e03fd72197ea13e20d5b873160e3dc9e1fc260a812730476c0c636);
(true,0x671a24451b699147a480b07bd9a5c2a57fce10cdf4ca17fff4e0fa138e705718,0x291e606a782169df409a825272e2dd0764d50a1c69a423e75efa904ccb80728c);
(true,0x251f4ede148c343f36853443a07420acd590684f54c9427d8dd2bafdd4a4f11fd,0x17d5e06d65cb6bd06c0b9f518e558bb684b3a3cff2fbff3fd4ecc707c101b393);
(true,0xc7954927c3053631da0a459d59d24aee979a22bcdd4ebe200720d67c8eb6f348,0x81159fe6df18d4343fc015c83e00e2c19ca49763531e8fb0fdac4f12e3459b1);
(false,0x15854b74ca1061a72f8327996b40cf4e8c30443a37914bb713950b174557f19,0xd7d307a5b75dfb7801ea49d03ef3341442b2195d3652f8b01b561fe46ff0d48);
(false,0x3c28ff33b66afde07ed5c4e501d336d14204fc463833ae6df110b28321ff586,0x251e5e75c7e3f62fc7c7959774f19b4e283dd3f7ec62bba8cc8728f704006eba);
(true,0x1e4046762d69aa25e935c2e3d2d69a7f0ac0e93f31e8a24a9675070a1fed22f47,0x1a5ff2fe7986867c038af63e17e0cc6522130dbbffd58e8f6bdc1ec86f58221d);
(false,0xe5ffce7bbe9d26111274066171f907ec22bba4ca9d52f6089ef29eedce19696,0x2fe9b21a01ae825cdd35e26a5c214a4fbdac56c9066dbf89e279f7ff219a20b3);
(true,0x32675130a814f999445d10b167424b15297f5ed8823e51aecbe664792ef708009,0x23743d4c4a91ed32982e170a607f4730779cce1c2d49431d283543453aac8fb0);
(true,0x1b9945a473e42e86cc64e492336ec0618f1c25fa449d5b69a338600043304e8f8,0x10bcf55641c2a2022dde3d3bcb72509bb4f2c63a8b0e9da4bd58264ac482c008);
(false,0x5ca1ce3124b960f3147076b28215aa27d96ecc45e7922650f4ce79741e755b7,0xfd1218484acac2b20b71cff4d09bfd2caf41da0fba53e048426ba6c0644aa89);
(false,0x52b76725e1e9e628418fb3baac2ce1c9f11b714d33652753744210215b4c2ff,0x226514a3e5a12fc1103e6f1f4e99d2dcd911ce662e6af9823a6ba6c350ad7a52);
(true,0x19f96b28a436d2059a9daac96c66a4592b5100faac9c0d2ce794c34fc3dec37f6,0x140ded1a22e355189c4ec2e2b362593f09a755badfb7d9168e5a8815c3be2e8e);
(false,0x84f963c92c1301ce14750f53f70b3aa9d9f90f855984151ce588f4cc76fdbc1,0x21424c927d61718352215f43b7c0c85435b8df31e1bbf7d704b0795cbfcf7b03);
(false,0x16dbc05a9996a74724358b5348fcfae36eaf86e43c7803c5f9a9f73f3b5267ef,0x2abc203d05a2f22caa0f60d57e50d7cddd042110179b7571b620dff258a37a1a);
(true,0x281910434b194967905c0d32c4297805ccc9e8844c92bbd254cb0ef3a4510cad3,0x274fb522c462e87018cd126303e1a55124ad8be4e4528f72ec27f5def7d4aa11);
(true,0x21ee43899cc36b41995600184af333b6589efbb9ee2e11058cbeb6b5af4742856,0x13d8b325fd096fa46c511c4891b323f47d0e452c49bc0b7722d2ccf408d7bedb);
(false,0x823b31fb01cae2b71a9f4c251d069859fe1459424f43448a8380c87c875f19e,0x7335eff041e5d5d0ecd8fa79797f7db42685555381afbbd59107871e9adddbb);
(true,0x1236f80b004fad1fd640694f055815fd8b9a736fa44f8f26bccfc6fdaafb86a3,0x2c949c88a7abb98fd2ac3ce7acd97b6302a5618fa2491cb54d144b97a6754986);
(true,0x2ba2df2699c8d175b67b03a92329d114b215460857db86fb9be4fdce6293d7479,0x29bd224d39dadcfc2af7cc50dd1b58b081c25dfa63f13a7759627b3891f75feb);
(true,0x26401ff9419065d22a760e8f3e135c80152efdf7731da8812aa616ea08df9d3bc,0x1ca100e2ab1ae2235ba5f2c36cebd01ba6b35fe951a5a24c5a7bf494ba14898d);
(false,0x10efe2f7308cdb2bac747d26805ea613ad1a3899c3ab5cecf5562ca075ad3703,0xd699122f93b12719c4ebfbdb63cdd062dd2f899716da66e484ba6a2664300a6);
(false,0x3b7a76f78ebac0d225efa25e75b3f8e8363ce68948f175d2527f4709d4bfd56,0x1d1e8f5c5d7886ef6b23945a98d9432ee9ef66d6e7b85644c7697d261986e4e);
(false,0x1185b821a4cfe968eee4389170d902b906bcb8cf8e96fd005fa1c2aca5f1bd,0xa6e5a209bf10b7208c7dab134b0b158d847971c9c555627b155f5676b812e07);
(false,0x23f9b10deeb9d57aaaa91aef43ea950197c1e1b126d4878aa181567a454c15a,0x119378b48eb5e7598f1fd602cf82962ba80bb2ec429304b863dff9f140ffc2d7);
(false,0x66238d9bd4e24805b625076ac6bef6ecc5dd5fc3b178dc7b1d408d95cbb6eff,0x12cb7b1a5b10be3611bdd9f84c4961d784a50f3a1eda14952e86f69cfe12192);
(false,0x74cb9cfa7e8dc9f3e6788304c91cd346328f7257a06dfd28c83259babbab4,0x120929460d3a50a63dca42b3e3196868eca6d6d6ab8166acc53c047fc75f3c90);
(true,0x72461f1d0a2d42513ef55e849f2588e30f4b383d156af6bf422adb2395540241,0x303eae849e5b463e5d30646836872316c1d8564f9d66e35c39f454406f1cdebf);
(false,0x30192bd73379c54fd90950e959e665164ea19a1a220ee3579a03244697d9d51f,0x25591f3fa26bc17b1cefea8227be49119002b2343cdda37a445c0a75bdfd62);
(false,0x1cd323fefafe08e6b299accf5e5b528dc690fd2f20c3a1f203f17359b001,0x2149dbb8430ce3931f9502eba8c7e1efde1d1002a68daf54f74553be4e252983);
(false,0x16e62587f42b40e91fdc6318877e6c3ac3cd765074259f9e875ae28ce91fa87e,0xfeb5bd107c857552495bad433cd49395217576349d9eed7e785447d179908b);
(true,0x590746d2756d4f5828185c3a8570c65ba24b9fa2e25a51ee78f43a2606baa1,0x16a9eb2d3f7793d7cd6fae16dcf8d0d95a4514e7dc2bf3f7b6f967a18526a868);
(false,0xa9d42c746172be47ba9c81b33196e7f588cf787f0b9cdedc7c694aad30815a1,0xaeff9bcc9aa961eb2902f5193c400ff531bbeb948a4a914583e0a3dbaa0949f);
(true,0x2a06583f4383eeb72115a4294fd7827b4346effee1b48125a81eebe21bd5c545,0x2ee45346d0c330c7bb1122ccc9356f33eccf5ecc23fe6d2dc01d1f77edb6218c);
(false,0x2d703eee7fca49886f2c1912f324c2cbb33b9e8fd995301ec6a266ad80a5c592,0x1ef0ccf39e6f618c0dfdae731ef21f8125adc1f78ab1a653c210d71c8ecf9efe);
(false,0x13c861163b36b398af045f6c7ad6bfbdcf984852d00fd4f765b77c0bbf322088,0x1e5366a6e710934570f39778a849c2816ec9e63f920f9a1ac67b17b10a50637c);
(true,0x14312c3123b5e41e60234f7fab083aa2853e60e676b0a6230fe11b5fd5502bd35,0x27042f25626140f832723ce84095fd5a82b4614aa4e762daf0603c6e41b8a7db);
(true,0x216c615ec9c4afb08165b284edd7cfbb9081c0439f60674306af7202d9fa6d583,0x23e4c851d77c7e6c5904ef05f669a6e241890799d4a3776b0d77db406d2ff566);
(false,0x1a9f993cadb47f2e0b657bbf48ac0d970e33a79fe402e4484a14d8d90be50f20,0x19fccb5827466e4b84185e29168a2ca9a8dcda3ddb90fecdd8e0308dd6cb5584);
(true,0xed3fdbc7194d750179a11c9e528b5e58fba0a4a85c1f392d4d583ed9579e9bba,0x1eef97bc0a6e1bd19722e5e2074768007e23817919c9ce5ab497675272d91156);
(false,0x13c6d5b44ab429ea1291f97b14a031776c8073904c2a4afa4d48a603bf62520a,0x898a7a4c660caf503183f4b208fea5fc31d2dd9eda2ae694e84d9ebdd9636da);
(true,0x19f5b3aa89f7c3760ca40094527a28eb58e130004f6bb784eead336db5c244d7,0x10c8600b2615c95e2cdd30e9bf8ab050d595ad49b689781500190df3e501870d);
(true,0x62f25c64d0ad8e4d263cd56074cc5d97b2b0eeb954952e917dc99d0052872008,0x1ea80bcf7311f47ef617af67e9b178135acd090b30288e44b6cb1d873a5d0131);
(false,0x136bc57cf3ea5ab4c2b81f6ebba36e1a143c37590511115818847928e9cbe445,0x26828cbade4a51e3b73612a56aa1e8b53294838c2f7564adb87de63977cf871c);
(true,0x208fb80b1cd45530b5721b5b73fef4ad90bb5b096d511b75f00ce250d61ad385f,0x5d5495a92b67c8cf99b64c364ec392620f9e29411105170820263d9465203b1);
(true,0xbf40358b5fcecc4d37ef7a79c0a5ab9cfb2f4acbb4468749828b3429ac92a0e,0xac3a8a31afffecc8b103d8c20e24bfb83e4ae103e57f14a3b460b7605c27c63);
(false,0x264f836dd9883fde0c19ad8586718cddce9f4a7c6948daf2f6910a3d23a661a,0x126486be7917ef11af534d7d24034524af8323a6b1cfcf82c3a706966e41a82f);
(true,0x76d758d54063e7b4a424f2bd80276cd70cab195be760a0a62ecb45431bcbab15,0x26ec3a3881777baa6a0357018a7ec933a0d6ff75647086a0a3c0c3f1144b979c);
(false,0x1f4e7ac162499f13a6eb44b304019aee3bd628689bfc86fae03719b3971ec4ab,0x2a9b03bd07bfd7c1374ee834fe0453c79e855f94a747ca3460d57a75a812a265);
(true,0x27db056c34713ec8432e61d70dfeb3323cc7ff9c208b956ae28e26dd461f3eba5,0x1825f81e647c5a581f76a9e74cec283c5d051c145c07daec729c84708ec3cdc4);
(true,0xccdb60c2ec365507951c5b6cc6d5e22114c81167fcc628855180fa0cc2bd9aaf,0x24995e20bb35bd08e82970beebc7360cd44412d1bf1f83e00d7889839af5c461);
(true,0x1d69012f5843c0cf061502cb8c08a7719a1fac7ebb67283d5a0fd73e482c1cdfb,0x249c98e92de074f0624b1c03cb7662cdef89c88aee38872c38115e1e1e77aad6);
(true,0x1d6e322e4f432ad460227aebd921d64a0732d2aef6cc3a0c6e6c93d8ede5136d2,0x19fe6e7a0bb85b18e52fb47233a8ace0a18f0ffe9db765fc948402bf7df26252);
(true,0xed5dc18db39257878c56eb5962a86e8fcf4b1884a39a9b4477cab217ce2a1061,0x137527498c5e82b76b36f21bcced3728b71d9b3d15adc074b280b79a2b4ef623);
(false,0x7d2d8fc78721ad2a43f9d4e31afcb6a8ef93142a08f66dd0e04799ddfccec9b,0x26174899a4b8612aaa0108ace08a06d3b2d1c2d88a8dc52e9f0dffb67c2e5c2e);
(true,0x1fdb4fd63bd84daf91e83215447a0fb07f168f3a5226d8cee966bc2505bdcb72a,0x3aa4929769b3b8286eb5ba98c5695c090ae704909a851d270750b91316de55a);
(true,0x4b81cb722626eac6693f4f29875abdf8c4122fd2a2188fe51189b4c5fb99782,0x2abbb46daae89d450174e3b275a52c6327c3c515d461111c0e8598ca5246c662);
(true,0x281845f3a0a31b0e1560b64a0b048368a1d65ca4d6f56cb75285244a49e4d8451,0x10d629e3f205385b6f7f4e341418634219ad7a46e5263b3a3f28421a46421173);
(true,0x63953562593cff0620d9a0f07665d3e38dbb97c339e4ee696b9e64cd4e25763d,0x173209b279ca1a6a6a1a31b9b03963a5fa433cf20a87268870a9df84ae1e9dfc);
(false,0xb1e419581c3e3867a0f64dae332904ebc742517b421bee5e38393a00a02c8fe,0x1563858d27ede7a7c423b014492cf60f67ca1879c24c3fd4fbdce663ce8c4712);
(true,0xa0b63ec619388aecbe645b8a297e5352319921999a61a944ba53ae2a567c3ac4,0x18e499eda2cf8aa5fd59797758dceac2610765c06831366d9b1fda09279e96c0);
(false,0xcce185aecc0f567d81cb663f8ab826bbdedb5613ec3872cdc18402b9382362c,0xaf6649b77fe084bf13b2067040618251830bdc9cf722130c1dbc3741a4359d4);
(false,0x27bbf802aaae8bf10d272b5a5aa4ce24490cb17db8dc9cc2e25dac6f0af4ca7,0x1b266be152567f30a1f7aca3d8755ac6ef2e9cc1696ab7a406b6168eb3cdcae9);
(false,0xf3b833d54ac8f51089269c89b772314bb73dd7a8185b5a0a68f62c7b13ddf2a,0x1fd9159a487cf99f3dff0130f427cd0e2eedf2bae2928600c904da8f5ec0a8e7);
(false,0x14f5c4bf378bad44715a4682ad5dc79cddebfedfc271897d365a75385af2a25f,0x277d1a84cadf45cf235196ac36b8e82ae2ab3ec04a314394165b161b02fd5e12);
(true,0x223cce41f70e5ac0041c4f2e8e57d0e5354324b7886445ee7f64e27959d02aca8,0x283dbd9c61e34cb92d9ed9ce464ca1e575a787dc36224028e4a14a91df7620dc);
(true,0x238e077a47c7ec7df7c27f58c67b465476b4c8218ce9d670d78f342c086b20572,0x1152574fd88e0dab0029699a4337edba60775b77d7ca12658232da41a0d1889e);
(true,0x69674e7e63f384f5fe3251f12b02e8bdb80ba1a7e8abaa7ac7fe553dada4f799,0x1a1b4bb22f7ef8eb62436284c770e9a0c7e5580bb4222f6805125f676b83622b);
(true,0xef6e0d5ad6e659f2111a2bdff74dc134d7445dcf94128c2ebffffeceaf9e276c,0xa24e38dec536a89cf1d0d165eb84e9b0689dc979f5349ae0a2cbec89a77ff5d);
(false,0x2205eea9452599ecdfa2ff199e41e7a9f1df7837d684378f957bc30cbcd3fb6,0x208faa299142eb5f56f38dd4cf99969b9df22997d2be33fc1586b95ddf632813);
(true,0x1747549c693c9c0e2cfe45a4ef8e0a6514857d8791c51584b17afc971ab0f1d12,0x26aa49c4a5bb88347d1019dbe6c2e150c4e26ee4cfc79a0303f03a708367eae7);
(false,0x1ee4c1db743f5e4e8605fd6d1c192ecc0c1bb653e927d5eba3804580e90ce648,0x13f5a4ed70932479f459721f530d42e41d098e75c193ea3b49e239fade603629);
(true,0x8bf3a61f555345d18906c3f9ac993260a257e33a3eb7600baf491b073a3bacd3,0x33024a78631ef7b94309e4c594eb354db97197d2f684780c80995b21f4ecece);
(true,0x3920ca92d8356695b14269ecf94bdf607125879a5eb62121584200588d74a54,0x26bfc9c785a2dcc298a893f420a6d44ca86f5bd3c160a76dcb7895e95143bfb0);
(false,0x1f0726d8e7731a3a9297346bdfd12a426bf33d8ba6ed4e833124bacc6c3b9744,0x187e62090357ea7c0b757435bcf6cdcd7146cab71f421f8df5e536f3196c81bc);
(true,0xd2c22e947e1950cafe9cb495af6dd67890b5685d6931e3abea0977f01d7667ae,0x1e140acb86f8155eb098a219b6e035739799b2f961b619fb0d4a15f638d8bb62);
(true,0x13dd24b727bb42e4ed7357ba54562789ff78845877182c2b015231325fa8022d9,0x1fcc0d9c47cc0b51d7f8f845a27b3e8d9867597cf5aef621d8c7b75d1c8d46eb);
(false,0x14e4a13d749579a5699eec74720a9961deab8b5f21817fdcf34e34d3c8755d16,0x17e42475d958b938bbe979e3910eef227a52025f8eade2c50f85f87e320dfea3);
(true,0xc8847850522b92e2d5fbdd3f1b8425514e2046798c43403aee34eaa59cfda183,0x2a68559c96e1870dc731905b32cdabe8d5a66f2ef2995f80912d2c5e7635f6d6);
(true,0x277c6c64c8e1f34a2749fb9ea1e79d1f6962db3057270d57e83a06009e6dcb803,0xeb477940a2958dd1c4991e2c5753bae9d0bc6ec4e6c525f0e8bcc265d7ef121);
(false,0x477eb20f1a20a43d56c27eb4051d0f2887b602ed730db043394c026df6aa232,0x1ca725c8a618aae229c5048c35167e397190b310f23bd2b00987f3047a30840f);
(false,0x10f728d1d6f0a5e6449f1a00dc014a83e3315cb5bebc984c2a56554b9cd94bfb,0x151f70b3412727c22bc8258f178fe402f4a142e31171864cefe1fce028e62ce6);
(false,0x93852cc0884ba306e0ea637d1d428974a10a962fe58d001143581f592ed3873,0x166cb2dadd4adf5f7f693c3e1773d4e36cfbd768000e10edb8c3bf92323aa631);
(true,0xb0a7bd99972803e5110d3efc215623d48dc22d34f19a7f32fd8bcebcf2a1d075,0x1da5a91e1f4455a1cc24774fd7cc94542affc378cdbb844dc75ab9d31cef1afc);
(false,0x1229c8aff0f13db8699f0896518cd29f1809eaa73c9e7e34f99e86fbc936d1f9,0x1e3241e18f1eddfa4a7c3faa6db48a070cbee431877756824d1315d24c295617);
(true,0x1405215569e2f5c9115e1bd15ec5c84988216f447f5557c03d36c84899fa7b282,0x252f128a052e5a35f17324718898bd41b20779a76034ca3a81bf47625dc1249f);
(true,0x1e5b8674d98d7a90ecf70e25b9db8e16b81df3424e70a0c65e9c0041852c52711,0x2412889626dc35092ad35285874505e5a901a87ca8de9bc83667b690afe79fc0);
(false,0x1ae3a32da1e104bb15dc93f9c8e56c9c7c04013544958536114749df8624ec03,0x279a40e47075538a5d76c7dd65e9a29b86dcd97a37e02c8d0d57ea1eda0b23fd);
(true,0x226f6cfbff31ce1a305b44007e5509a31938a008751b6fdf8dd4a165a897e95b2,0x42a7ccdd8589eaf9b6c5dd9959785e7c31ede1d35068e83fcbcac5ba42112e7);
(false,0x5bcfe182c3af9e87880a01e584f949d539481aeafac70cfd5afe8dc55ea171,0x28ff7040f57d348a0292f927364b719f26ac629a75e70323d1dfaded2394ab00);
(true,0x24e787185b04b02d04a199208e311edfddfda4e067cad4f1b83dc1456f9412af0,0x73ef52ba4e347fc889d69b3cb0e02f2c3f1eaf41b9c789ba1c832d487d510);
(false,0x115c054596c0b9d6ecc6adc8bde250b370e613d62958ffbe5a5c05a9d75,0x7cf836722e953e2d495b3497f9cbe65c2b69be3f6cf54c32caa3ec277d9038b);
(false,0x142ba5e7370f2998abf077a29435a86f5fad9246c5b1559aeba1ce9eb5e03e6,0x12ce2ee6ebc9d4d3e525066e55c66eed61f34e039284d204bc18904ab0548993);
(false,0x74ed356147df33c47454f0673a6dae567ecfb228c4115115e028f87cf34ce50,0x282a7433dfb72adf9330f310bd81d3273cd5410f7e762408bf50292de331dc19);
(false,0x215691b6dfd5e5b089bf657993df4da09e76b4549be9175fd9cb63aec7138f77,0x6c80450e5f3427f7ca557543c2b8fcc0f32f1cb328c3a4c85bbda50fdb96afa);
(false,0xf3462db9d2f93999498d00a7183876fdbde1de944712b72870579667c3471c,0x1029c0edb442d9411f1d10ce6e6443f1757ccaadf551b59ff1459ca94644b508);
(true,0x5bc6806d56614bc060ca2d5f149436e2dbde93c1f4adb312a88e349da5dc13d0,0xf311067dfc4d8af32f390e7856a3cc9e0355651c5a52e92e1e712712aad4070);
(false,0x4c4e5147c9a877e8abdc759d431dc3b869c56479eb05a957e6cf922e790ff13,0x5f7fed48ef041123b8118038a5ccbe1476c6ffecc52df21ea86217300731ed);
(true,0xc83ea7143daf61811b3640984a87361c2c5b8c281edf610fb6bd4cb4d1317,0x2413eb02ff17f3a94bd2aa324c1b25a43748b05d185764095cb770bd948ed8e2);
(false,0x1ae5b39c8b3f9efc669c988c0e8486c15af454dd4a13ab0728b036ce183620f7,0x12694ecfd1ebf9cec0a8fa96c5ea11b70c9b5edd64a68c5b7fe831a3fa40068d);
(false,0x7013ec4f2980d7c35103e37c544e098bad29069f6c74d43c0aa8380d8617a4a,0x1133f994a072329d44e55b669bc7e3f3f085ee9d2470da68fba97db872496f5f);
(true,0x67f702ebb036c9659b7bfb91717a3fbd0e7d8ab187d37ed9e8d52e3b2b5a0363,0x230311a077c236df080279fdaec3efdea02970086c4698e6c6c1c5a55f5fd5ee);
(true,0x1aea2da9427bf5c09384c3b9ba4956384afd5e4cafbf4d51ee37f07098402369f,0xfb7724d9467a2f9f7975a56926d5933098c896fb7112405c6880a19600646e5);
(true,0x56c65768247d63355ecf52db472b129e00b4a91d389e3b2f36ea5808937949ba,0x23f9fdc2264c1693ca685cf360e3f72c9e4fe43fa6022e0495c52dea98c54caf);
(false,0x1abf18e40cca4292835695e04ee4f106f4d2a721d1867816f2b1c8f57875fbfb,0x5d7d018393c2d2b254c2abc9c3d3f87e335bd845465a58a6a044bb923d863a6);
(false,0xb49c3eba3d906a931446d184a13b382c55bac17ac18aeb7a241e09be171083,0x134ff7b0958795379031b5cd14f6ab99f74fff366c94fdc290cf945624d2bf21);
(true,0x8305f122c634b2e3767e1e54147ee34ae50e3e7e0a9e852169d5c33e7dbabaf3,0xb734126cbd9350c2c76d0d0c6a97f7cd37eab0f2d2f0f044bdd2116a87fab5e);
(true,0x2e0ed2189d4e1ad3fa636ecd8c5e79e187d4ac13e777e8a8fc42139d93925e88,0x1ff741f7e1f664fee94768ec0986f04022e3fa766cd02c9f42e3d0576613c03c);
(false,0x151d8ecb6742f60059ae351abb764539949e9b937f6c5c477df74a434cd3f09f,0x1299920733cd9b1af9410f38966106e4709099a1f3cad02db3195588c6e1d71);
(false,0x7262856e8e914e8566b8298aa1340c38367fbaf52dd433f2bbc8f418f228a,0x28a236e0863841f988c3f60ac464f04bd1a2fe552ead4757fb19931246efa957);
(false,0x221e8849aa742182c38383efb5851e4835a7e5576c2ece29a25f568627acb800,0x4b59ef9a632fab52d79d2d7822b9f431683eec816fe9d88c2fcc02f0cc94391);
(true,0x7ca9cdc3ac40a5ed6891738d70a50a011e5ca5e747ea16daf650b692f903a17,0x2b5f260b60c0615caeee43f7900753505e6ac0067405c704c07be8a73c6a801a);
(false,0x26df5001d4a40e1fb458e2998c850d74bf7b5d99c039b17738401286cbd8aba9,0x2ba00858b3147ec7b31e017d0db1942badc3f65f640155a6e6c8d7c649c956fb);
(true,0x29c934a5fec9a6c57346bbf3cd39b27d659060f9c6eeacd410065ab660af0b740,0x288d6860738ea7d38ce8b2335c64600cf236004b14ec1bfa83894ad469fc8469);
(false,0x21fba01f0af87cf897092fa697158a141f804c5b8f8530dcfd30874651123765,0x2b449bae24321dee1e3770bcd6e2be4661ef91c0daa3e205dc9b0c6714223bac);
(true,0x291ac83e85858f4d0cf7fe8993db7fe5dadadd26b3aba2e4c533ba280f12aae4c,0x2d228ee437068afc060fcf40e086f758123b31f57480297a7ea92faf0ff9c644);
(false,0x2a18ec143eb032ea4ce880e526e305070d7e3055336b5c45eafccbb02dcc579b,0x2b1fda41ad1260b49344af138ac2956e2373b177c8975fcbc2bc3f14c408ea75);
(false,0x266e2d2bacf94110f9ed6102ed911efb068c0a63a127fe842a3ebfa553fcbc09,0x1d64930f53de7b36966d7c3cb43ff99822ae770743ebd73b68c69981e20d5d70);
(false,0x11da604d7a1fb6b3e82a75036248ade0719f393217e352491e6118eaace10517,0x18f73a0d44c62e9fc5352ec20de453c83b41ba0ea963455de43a7a722998be9);
(false,0xce149034d33c7bf0ff0bda1723a5d8352a0537cd60b5975def94288a4a431,0xd3f1dde7769c74ce64d013ad753954119bf1a792979f593d5ca2cecf45435e0);
(false,0x3a044b019c4479c0ef8c5c4763cff6d52e5118ba3d68e20fad8ae944a798cbe,0x139c844bc8146f59a31d9db51b79e60e9f5c318599edac9a9752adc5fbdcf742);
(false,0x7f2a0a2ba08413cb93e86b386500458293fd1e128daf5545d27522fa60c5cf0,0xfecc41a0b14566015102d045f2733cd257ea710db5bf164cc88d408ae341014);
(false,0x53d96e6137380381feca99efee4d24fbceb1551ede026101d51efd801808636,0xd849b0824393b47b050e380d9448055ae57cb3f5ce9a652f63dc50517a1fb5a);
(false,0x3c6b383ca8d02b431c1c8db2452c7918258e82e2deabbe4bdb8ca1e1d972428,0x9fec472fd1967d5ec2a86b57878a1699deeb326d92cc071203c5030ac66777c);
(false,0x2108175371816eb3d24e6a32b591ccb01befcac04ed1bccea471488b5914b7f,0x1fdb46e91d7c956b5e22748f40a42004ccb046b28b8a10aa2b86f7d549033891);
(false,0x14f8a7abac4af25cf9d79ca1953cdeb83c409ae3182f35b64e324e2f8d9a134d,0x1708e8c1501fa85acea5a289b5c364a7f35e14e7affedc9ff4913f18544baed4);
(false,0xaf6f6f28d477c21e7dec9a015229c671702b6ffb4bbb1370c67ac775cf5f78e,0x14e3f2d4450eefee62e781601a6573b240fcf5bcb78eb755dda28fc48aa6e802);
(false,0x904ac64c8e014b3862bc18a4add8943b04d669d6d8f39623fea279b1b7066a4,0x2cb84613aa0dff8e6ae878988cca2956113bb81b6933658e08d87203016b3960);
(false,0x295392424a0706b912ab3992158275608ee40f806b5df5ba7fd519c36066c7f6,0x10b5bbcbd40ba588b7d2033f52b85854af315e76d6c224fdd5d0261fc2b51c0a);
(false,0x5c51e800c6a2462f58235a4cd9909b681e73c42e64e958ce0adbf6cf207ba6a,0x9c95878441329121c60ba1cf543e901c58fb88484c417a6bbf045fd7f2e75fa);
(false,0x1faaaf7bfe4a8f6a31e4e77668c558eb665fe6fd477c81e3301d1c87eee7abf,0xfd1421f5315a1385ec554282c4d2b736570e91d2a2b00f5f6136a181947fd65);
(false,0x52b8bc2c738f983a69285171ccf284f7657795360e840d2a215adae78ef4d8c,0x5615b78a999d870672576c878bacdbf8ae8b95781b0b5b6a0b1c0e689e77c4d);
(false,0x99232d48a54ac5245ff6e1fdbe6617cab160c7327912f081df0128575c7c36,0x2f0e45a2ace3d562a98ebcb20309e83ad8482c37f1daea4024f3b81b01f432f3);
(false,0x2dc1ae5429365e25f133b783742e7bcefd67c35979d91a5ecf5a7677ac318d0c,0x2a74bdf8b16b7b2922a6a35f85d28ea6d75774b0121103e01b507c02232a459d);
(false,0x253f91bc4838bef9b0a03da7f9b9eac0f425cc69322ed54c3d5fb031ddaebcf5,0x28b9fc0857a1d6dd22a4c30895522d7f5e3c0a7948743edd6f5849714ac34554);
(false,0x22467f21b5fb18b5a7a830adcf7f37860020e1422cf338f276a067ba37a38167,0x126d670e03720662daf4f1487838dff06c14b6af4d377fe4cc7702ff791ae229);
(false,0x7045cc0f6244e4ff2079e430d0ca4e1a8f90043954e450e8b04148e0057e538,0x259997e108e8e8e2145b243754a46956ccca706d3d5f84266819ebb0f9c88559);
(false,0x1d36fdf9f7c0f9caaba7d602f5ff7a6d2519e9bcfa5c9cc468af81ce3f03d4a4,0x33748fff4ee191a56ff244b3eab85b211d3b8b9319dd2c17a074983c381c44d);
(false,0x36b6777e788ec1130365ad007400519e57bac5b29a65043650e00a1c9c85b2,0xcd92cc0dda4de8b855abf1cfc89eb0c608e8a1a674ad8fecbde070bbd837977);
(false,0x3694c08e588bcf9b25f9437bbb29dcb6be7a9bd653432198da2f90b17c89bcd,0x22ac1d14bcd8994532ffe8e17278f5908c94847495f4bdca3b37a446f7a31984);
(false,0x18d7a8750230a31add7db4e8c2ed9d41ec0f16b6eca9cd6629113af2810ada69,0x2db9d3ba120dee4363bd5245caa9ab5cc720d97748c8f887b490e856479831a7);
(false,0x2b34f22557aa0b78b159fd283e867ca98486c2edfa3c5434fb1ab65158e493e0,0xb3c4d79d41a917593a97459a6afe5ea1190e87a6490cc711);
(false,0x29bd10db598521bee475d47f86cc6de43,0xb3c4d79d41a917585bfc41088d8daaa78b17ea66b99c90de);
(false,0x29bd10db598521be7d177871172edefa7,0xb3c4d79d41a917585bfc41088d8daaa78b17ea66b99c90dd)
].
