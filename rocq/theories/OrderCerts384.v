(** Certificate: the standard generator of P-384 has the standard order. *)
From Verif Require Import GoBase Json GroupIface ECJson Curve NumTh Primes PrimeCerts FieldCerts384 ECPoints ECStd ECCert.
From Coq Require Import Znumtheory.

(** the generator of P-384 (FIPS 186-4, D.1.2.4), which circl returns as Generator() (group/p384.go 39-44) *)
Definition p384Gen : Z * Z :=
  (0xaa87ca22be8b05378eb1c71ef320ad746e1d3b628ba79b9859f741e082542a385502f25dbf55296c3a545e3872760ab7,
   0x3617de4a96262c6f5d9e98bf9292dc29f8f41dbd289a147ce9da3113b5f0b8c00a60b1ce1d7e819d7a431d7c90ea0e5f).
Lemma p384_chain : order_cert (-3) 0x1000000000000000000000000000000000000000000000000000000000000000000000000000000000000000100000000 0x100000001000000000000000000000001 (fst p384Gen) (snd p384Gen) p384Order
  [((0x398e9bb647af27db82eb6364cba7d64252ab4c5d3bfcb59ef3c1276583b9a0aea40fa5894752d433118ffc8f4795bddf,(-0x13c76fc311eec201d9ccf39f6386331addcf9c0f1bf3d0a317dca95404992069c51b67d0699635be709888684e61ee312),0xcf0d0c848d9c2a813352bff9e803a9ad13b2aa683a2de999bce72afe5ce59240b5a229262143c112b18c4bbf318ec8e,0x2459d9e658fa27a34f2f3553f125723113eef94f54214070255b0f49f8377cae7e98bfa9a482956e40add146442bdef5),None);
  ((0x81de5175fe483568a459cd270b7e92416b025296aeafd8d02f494d82ac7d0be025bda2999a9553383c6e304d614654f7,0x8faa7ea398a522dbc8983e5af8d724c152fd96b6e346e22f4e3db66ed4ce24c30e4cd5ab591a4e355aa4961748446d40,0x41e1cf2a4cd5ac5c337ff481f358de5233beaf0886997a2ee60f594648d49f1dfb896e345997f6f96dd9de1aaa22d0a6,(-0x56846d13cd1f99848776f804566e7fc8a80bd9bce55b19649f5a12ceee3e15557fd6a8a34ce967b183b67259b0e9f8d)),None);
  ((0xe57cf00a16844a0bfe5cfcad90163587f6e326bf706763b90420b2d21ad41a7ad77290ff75622179b0da5688efff5633,0x1671f1ac99a3a1ed985a99c9c784584d79fdaaec0c3b199e724842051b04ee4667253ebb204bbbb330aa9599aea3025de,0xcdb8c26b7721673effd80d180675b7f20413ca6a06867b23b67c1d1da7ad8f9e7c2dca32791323cfa1b76dbb53feaabe,(-0x2bef0777b1b71235e82b38ade01bed89b8f78ef2cd7665e4e0e90aabd009e0897049f39d432cd74bf84fefb17e4b96f)),None);
  ((0x6bc3e4ffdda16fde19c59c777e37bc3740e1ea2a78c87fa451a1f43e4e14b2d5c0dfa9d4277134c02683263eaef2b989,0xb3f12bb00c2702590a6afec67916828fe27d6170226403d139602969424169e97ff7c40557ca629cbcbc389df5e98e54,0x2d5d57548de959f6eca70f2af6ad64ded7f1406ed070c69add5affec0a4ff86ce94af31dd59a15cc06b2ae2866e7f578,(-0x5084aedbc0ee92837de004f9c78be835cbfe2f0018d3ca2063e92f0606f9cf5865be6d6459428b85c081b5d6b435b1d9)),None);
  ((0x19b599439c78d9e5cb4afa89c903be374e426e1a9d856a1ed40c4dbb3c524246f5c30d27c2302cc44f7ae1fdc1b20877,(-0x1ec7fd067006fcbc661419911b2e79c855534790371c49c0ce3edb435a670a912a08bd089bb5c3c0e908070868197d2ca),0x294f8c149ecc056bc005ada497a2964b94c23db48d4324a0d941d1378b48a6de61bda141c926835df5df263ac702723,0x8ad2d1bebf242ee129d102d768f435bf02db610b29b4cbbca0e39be394dc5a7c41fce9153ce39f963a1b8181391c22f),None);
  ((0xe4b29e93072ca9b54cbd7e029cb0378eb0c8202e51c9387396d2b58ea3b6470f1a2df803c36ed9b69c4278767fa4d067,0xd1e44589f8cbc73534d308e4b8ad54375dea13829a704cbda546cacbd7810e38cd13d61979a402d05b54b5475f9aebaf,0xcc4ea716cb7759b34fca69fa9ceb562c251270f94bd185b58d0ac6f00896aaa5d6de0cbfa3326732bea13b9e7378b49a,(-0x3b5870cda3e88206e60489b0bcd35da2f29818995074d0caa6d612b6b4cbc650e4d806d7a468a458f3839187a2486bc1)),None);
  ((0x99564aa05caa2887110de1c909047e587de96ee0719561c4b3d007c9798cf45a70567a9624e7999ad55cd8eb2a49918,(-0x1a9ddc324b9979589d39de87681bac87207f079ff7c81efddb44c352da85c4f0346b106c32cc16ee43bbf9f47c327cf30),0x5bd84249e842c0cb02cd8a2245caffdc3a6fb924d975a6cf1e17c37a551ae052b5fcf2241c24d6a523e0a030d6df10,0x2b24ad084c6109dd5587f2ba2b93aa923d614835e9daea3c901acfbe69345ed00d8f65514847839b2d87b397da92866),None);
  ((0x1408997cd7b1a6c0e3006be730ac65db55fdac1b6fa079300f803705669e8da21467046ab0cc90e1701567507b416a27,(-0xa047782b9fedba6148dd9d111293ef719c71abdaa9e50a521a9245bd8ad3202d6d9f664948ae875591c27bce9a766415),0x19158457587b3dc92ae3c7548142e633b362ac398da9f790ce9a44f97db74c69720682a0663046245d1341bc2c42217,0x6e71db6e4973824869a0d49085ebb32a26f4a1a0681fba1bbe85671557dc6e301a9dcf6b26e985ac0e632f6bb09f042),None);
  ((0x19ff2b27beabd0f1533b2469efe7e10475005619153475c9d0732398cc2eb2d0327e276fbd8466a5cc029027d02f9fe3,(-0x1c9454d3283af9314d8b2adf7370e6bfff046064e104a9ec129318ce65595d9d12c678c9ce2553cbdfc8cc8d3a16ad5),0x2a3d4c4c3b1c952c19395e37aa1ee91f53204846893c527c017472f409f42aeb773552f5af948549a9801c1c75940ca,(-0xddf9b5011ab14710f5d5d7ee8d21401898fcd27832ed14983aef3cfe6ca9b5c4ca273d3316e2611f5f2145f38b611a9)),None);
  ((0xc34817788e0c91e7ccee9fa076528ce34d8619ec773dcc5e688b858ef510fa957b288fc4244be2958aac1017ba7aaf6c,(-0x9a493598405f89719dcde51a4df2b492ed4a65bcd213477b3024472ecad960076fcf8c9f3e831629a709f78f64f63a80),0x94f6e80ede5defa4f169300667252442107e8670f368162b23f0d92bbe980028064ff11f488b963bda95554be1c7ce08,0x60d4f54e2c3992a711531dd551bacf79d9f6e446026036dd51146c1ca9b781c313965897cd6e1e5caa94ddb9531268bb),None);
  ((0xcae400bc5e7fdb344f347630411efdc552f00b8929899088213449985e91338c08d25a49a33db6f5b6d6072643823189,0x5e7fc23b6688f59c3fdf4b1fc34867a934cf919185adccfc1a5694a7deaf9ea2ec20955c1ae4d93630b593c291602c69,0xa0cc9c3a94aaa447f0d7f9a0a58a259bcf9ea56f024367a1ca43365a540028c8e62f9e56f5fed1cc5e226789d8be1b81,0x1689453d66511b0cd8da4500373f9af60301e685508b361ed93e1074f6c9b09b4ffe76037976bc69c82b432da806393),None);
  ((0xdbcc2944fa4bcb10a9a4f1ff8a3e73e8a730413a9b22f1037db633bc816d0b701a206fdbd135da17ca4dcd231ca62f29,0x19e26d667e9cd151c2d333aed67b9cd5cfa4344ceb5403cb01b21ec823090020b916fa073c0f8143c127e1c0c6f2b37eb,0xbcb6f16dd0d3c0fc58d5eb2b031c95505db6cf9d7e8cd733c75dc20305b2f1bf767a5776b241a5316d11c4156cd9c6f7,(-0x756e759e1527b7a4f53a1562e19e1dd339e6cd96918d79af9617060d26db029c0a40bfd9bb08f42dd87b920255d2bb4b)),None);
  ((0xb82c9dee6cdc388d5fb90617d152fa795a1109812657666a9fc1f55f817156ef3ef62ceb30d82b6bcde68a62dc2ce220,(-0x81ffed458f1885a47f13e8042341b3c9f4a494cc6e64e912b9c41bdb17639cab1a3e65c80f8707da87d446cdff431f53),0x84802acd67e04c935f53fbcbcad692b7a285c9a68c5454ac31bbaadb30254f3bd3dfb528fa371e2e7d538a211f82a539,0xc3f0523fc01a48ab60f8763dd2f6d1ec79865a13234e927f6aa8267a5a958ead20b34ce28fee502d75a855931330919),None);
  ((0x4b6ebbaa2e021718407e9dd154b4885feb1eef6d268cc1172cdd6ab855d3961bcc01cef0c4f445461ae432b9be320bcd,(-0xde172b701b9fbdab91aa0c82bd9743e17cf95477da9030ace0d3d9a47a1482606a2778b5a98d23802b4ac9b90aacc66a),0x163a11db86c6d3ac3f6a7807ffe3df663f4265987f50b91c03ac8019c4fd8d33605f92fae92e3fb08e1fce23c0fe6d5c,(-0x39bb202b77f1b3f9b1f538a3b17b1afab953b90411c203e367b2120cdce004a352c39210237c0c0333daef78dfc9d11)),None);
  ((0x3b2c4644c12eb186889e19d3965016030ba6e792568344675f5c131e63b5c2f901242eeadcd0a9587176d519f7cb7067,(-0x106234740caeb0f4772a7ee14b48ff97089164c3cdbcf5ecccb0972b4426dd6766bba5b14b73927d15d9d220c93923090),0xdad700bebf799fdc4e328a09394cfa8ddd10e83d3ec0aa2f35470e299167596c4d4ee3b42fd511a515c3bbd36ce84c5,0xf88e1a02e6058ad39487f1c98c7b24dbe5786b53d15a80aa907b2227339378f09b9d8d0ee05dfb95d838e6bbdaf47e4),None);
  ((0x7b62d750209711408db55843be83e7be0c2ffaf91842c9ad7d53242d5420342d31e3431d36ed685c9a40d4201db436d8,0x70de69b1cea89c5041ef92941528c6059c3d92420b66acbb43f88f4bdbfb02d19b59f307a2e094b08f3687c7ab5fa00d,0x3b7821108dc1ce0f5f24157d5747b71efd4b9d8ff3a2d810494f4c75457155563152daa22198320c9b92e43e153980c4,0x29a4fd6b39722de1903a5c03efaf67a2e358e80de83a19d4f10cd2c731c2b60e6229c905e60930fdfa0094620e851a55),None);
  ((0xa849042763b8bb928706ede6cbac4e22f3ac27091b7ecf97d7710b9bea43e7a41093f98c2ad5096cacb5295238ec0d7e,0x5f5fac36349782da03b311d556f8ae73a9911ff1d1a6bfd76c7738b108f8b68fd034682e2bd4cbfd64c8b62ee711de0d,0x6e9fea47116a96b899c83b7174fedc9ac8acb5b4ab10559ccb337f397854b3ab0ef9558948e93489f76d837dad6e7883,(-0x3ff42d8149687e21198199ccc220f3e898ef9ead1000f85ed1a1a2742c21c350cf5f54cc5e0192395ebb61ff153b9c34)),None);
  ((0x321c676e397078dde462c733d9f8d6be6cf058b9d5c433010fdf4d1ff46a6706f75c16931d84e361bd6a626bd9ad5a6d,(-0x6568aae0461cc0cf59459542cd3a36929288518aa823daf72b340755ee13581c99e55ab40d2f6138d139d5ec26aef184),0x9cf1b8dd856617f088e3f20609865db0857acb8d5289db2027a278a6b84456d3d6c70a4a77203aa712d6a5c91375ae0,0xd7336c29704b5bad7e362c73f3aa66a2a303393ef902a767bb7aa284ed9d21441bbe7ac53a46095b6168d0c1c97d94e),None);
  ((0xc00f685979886005a45edbb858160ae2056fd339c556396ebcbae0e0f56029b26730dcb5d603a3d946f4c57021ba4ad,(-0x1a48544efc4707f3bfbbe88db5212dda516f01deec2697f0f57e315190645ce3c420cb5945075a1ec4afc082bb2062a8),0x90171d739b51a0083fc119971f9a7c8c27fa872787478bbd42f7e2107a0abe9c8875d6d193c10e8123dbdd7d7929ea,(-0x7226a9a216ad1dff7da9c762fb5de764ce71e3f0a65739e418d83638dc2f86fd3f366c6219033fc4056b82d636c94d1)),None);
  ((0x23eead3be6d2c9b297b1d94e63bbbdc38e083707ce65245700aa349d9fc55fbe0ef4e20b5e32b160e38934a28ff373f4,(-0x1cf12408add59670fa4d335ec5e0e49368a94c16d02427444d348476c6cfeb98c2dd6d6272ebc06a189ac1fa6555750b0),0x50b21e4f1b8d712f7707970393344f3fbb9a8f3f0bd78723a2342bee4c618a48bd9f632e991a73ba5a8b33c84eae0d2,(-0x6cb53087b2bf342c3e0ece8709463dcd24a20bbd6e0d513831ace97d00b18fe9974898cf4421f50f5054285e4376285)),None);
  ((0xefb91c876583d12d4811cb0f3570e97ce8a84e214dc2aaaf453f2dabb362c46098f3b0f3e4b217ef8853e83436473a65,(-0x163ccf56a6c3c59e67d212c45c78df2cd8ec7fa25a8e431ab9d5daca9961a992f3a3e0b605dd202e513193655334ac157),0xe07b291f0e6abee7ef0d2f51431453030af21fa1216e3de10b986b93c944004d6ea691e6ce6bf0ece80f7204d11b5943,0x72ccefad0f39332391629c2611a08a9796fe0ae326350ec283f3d67cfc432b34459a04af19a038d0ab42367d529bb17),None);
  ((0xe9e6ea3511833fdee6d66cd47c1c5a642b1389d63ff6261b94ee28c9a8a7cf15e29b9204d0c860bfdeca79aba79f367f,(-0xeccd2b2b7bf9f899a4611c69eac3e5b691df303032392e2dc81cd2ed314b729f1fd07c4778c4c998ac6c4cd01670f691),0xd5b6269e4781711eb707bd77f43053f64af1a20831e8eb73d602d5385d9104b97554d7046cb825a07a223308b3f1cf6f,0xd118c2e6f448533408a2bca4722a9f1107c1624b5cf59246f22fe6c45a469678a30041a27c4b5ec7ab867b3f1710a6fe),None);
  ((0xe920252d34f9ea024feb63ba7358dd75c85660f07720be7704fde86174651e099388e6aa77f8c1ca1dcf0cfc4a366b1b,0x2f9b886fec8d655f0a33389bbc8a63851cdbb593b918a90f7792e12515e8b0d1e7ad19755c39a0a0d7cb0cba21dcb417,0xd44b87b59b2243be9e85e1567708e0c76be33ffb9876ec34c06df2b65cfc20fbf3131f2b913e4c49f73a9ce9050163a4,(-0x1c591246f872f5e157b3799e109c793edcc069259b5a6cf595873020ee675066cabf32754c4f423cb0eb6ca5deca2ba1)),None);
  ((0x151383d92ba21c9a6cf681b20ab78d126c9d4bd1e7eb08f08b8d7562e3ca95205a90e25961959e6d8b45ee02e74a7e75,0x52a8a7f12012da485f64922394decfc615654b6a9598485fc1ea990181e95583eb8f756d0803ba14566f6d9d9d8ba2,0x1bc351e774d0da47e5703739012a7bd245f133a53e4cc74a089f09c64deaa60a2d9e4fe7de5258e2527db0dfc2238c7,(-0x18eee0db2033f4ab41dd8808020831ffd2be6045f198aa8b12214feb7c75a88482a5342b9456c19daaeccd600ba505d)),None);
  ((0x3cf866b68d9acdc2744d6dcbdee0566f9fe3b55cb93e51b9f4b6a079306bf2ae989b14bf6e5fab0742f8ad87c6612824,0x15cbe7258b2166238fa58fc52e990f2bc6914f027579cdd79f8562f3fef4667f97066d14b5a36a1784633e9b4c38cc71,0xe85612cbd48e766d1ad0aebc481c8ba9fe8d44faf5d7cf159698fb888c0df8eb0f395c238d48a2d96839029d7cacd87,0xa0f62455a0c6dae125a037633e0234bf9019babd3c3aad915b4ed06ecbe606a83910ed679ba3c88b6206f9bfaa6a054),None);
  ((0xce0959e039a6b2382cdeba63cbf4563144450073fafe5744fad127c3be65a8ab820423a47472f739a4202d1b56051d1d,0x14ee48f00c004d87f7faf34305fb839138845b8b1ed88673bdd92ddf75999c75ba37948c8a996cec89cf351f7a68365de,0xa5d30cfc4e1a0105c8c8350bbb88aeedb79be5a8f91ecaac26eaf957da4d8c9ee3365de613e84ee07774bd21292c5761,(-0x3dd9399526b90c90b20895eff39c8db4bbb93fb7de6b3a28e0e42db1820252213f59847bd12559a7f82800e55112d06b)),None);
  ((0xadd4f7d89def4aef14ec72086d48d8d879aae821ac31fa1dfa6f28f1f685094a20730e7beb682cb71637084a61b1e465,(-0x10f3869cd4bd1160bc9e3b5e65e0f5b2a64cc374bee117f2ad95980aeb6dc38fe775a69da5009432fc5573b6d118ac59),0x76098826342eb7a9e619692614b85392bf4127ff6f12ac1c08fb287a431032522a4bb868704af748dc978aa5dad6f3ce,0x30285850c2334d7e06c7926db5316a72574d5c16a41668e2377754e74ff9cce38dd86975bbb5c134306c679045133e66),None);
  ((0xd6b2f1ebe01a82b77b1b3e50729f9069a75c2f82f8b8c164fc14eebf970deeca287dc9f874d9052892c4b0fb7562413d,0x6bf7f4498076c6a713dbbbfc0ff9b7695f8107ad3166804a7c4e640806484adc0288c5ed3804d28902c6598df2886170,0xb40fa98bab4decafa7f098365e4d95f6adf36c0d8a164123233b5a63b82977129d1a96cd76a30bc669186d7e80d25617,(-0x6a8fe5de12fab5fe72309ca3d16b0bfb048eece3b9296861adc15f06a1776cecd1441b7bfb7c95eefb0888b023f6b109)),None);
  ((0xf57495b084c15f6f11d2c57f944d89b20c388313beee3725b405da0e1f30da73405c0efcbfdc0a55143f84ef3835d245,(-0xc34331ee677614583fd1a82296af7ba5f5a2cc53f746c883297147ac2f91ca394b562a3a0e4a2de206b98bb3fb4914a7),0xeb585b9bdd996428fc9814fc9c9ebcc6018d08861d81ac05e1f1e13e273d642fc3ea54214b65800db2838581d65fa70e,(-0x48b0d3d5fcda37dc818919f17f8b0cce754524bfaa82152e55bca37a94e55bdf363cc3e769214d4fa33613f886bf1be8)),None);
  ((0x50b62ce49b47f057f297227fa4147eedf160c5fb8077c4aa65489001dcd37c871491e4347dec16afa2b98772a319b587,(-0x1cb7e241dd8077219c362f3eddd8338fd3536815670bda1695c5bbdd7c1d7f03ee4116c7e052d53bb5676c800acd61e22),0x19725db2bdf92206659dedc2974c08ea5e1c461371f8967944dbcadbc84c8e7158cb16decb73e96988fe61fa19c801b3,0x142c090907629746487b5a863cd67aa458538b883e5156404ef3b9a286e3436fdd956aa36d9cbb31205cca98cb23539d),None);
  ((0x8079b674df85bce21b753bb51c16179dfc289510d17822e9c12ae577dd21922e16e585cdb14e0537fe1cc2258266d270,(-0x12aa629a9583f6e3232e542c6c68007d809ccca4d30c97deba48184f83a5bb5410e8129e78224014df001ac8869f321d7),0x4079f052dc0b6c7c2622216ada91ea6f6bda068b9aa6eafa3e7676c45a8cbfa6a1d15f0df56d160e18c7b1ee1f22cf78,(-0x168d7b72e1b6c29e5ddf29e9ba169fbc7c0d08c9e7f98a6f4892b24197798bd98de5393c47363be7adedb3d5180e8362)),None);
  ((0x205f09afa00332cf21d20d780b22c547e53353fb2f0b21b76aea25ea3bc2916b6fea62466cbebef2182d7c4b92cd5cb7,(-0x1d3095527d37a29a3f95699904c18182dfd044e8110ba0f8d0fe4b64ae30fdffa2fc918163a62a953dc9d268d69905711),0x417e5b418b760cfe025a4622938bc983239f1393a457ab8cf1d5ac1a063fb7be5beda53005247613262e3445e91ac75,0x308b9dbe121920d403461dd208391fc677ac8a56358d199e099ec1a11d618ef8c9358b3e5e0673ac5d4ae6a0757e652),None);
  ((0xf606b599c79b2f27b0d9e6bf4d9daee3fa5bd7aa40c36834d6400fa8c1f95c2c775414b54e14dbe2756621a5baa5245e,(-0x5130202fee7a97a6e985ee7a3a6740ec75c2b7d8c5c501d5fa35b6ffc2979d6f4962beedbdd82c5494d72796d022b08b),0xec70e5308fa66a88218e3095d69589a04d3fb1b23fc6c6a23902742104431e421f209530e345350b8030a3c7392dcfa3,0x99015ef98dbf15868e910c714fa8ba0e75fee96dbfc3e37987d5c1ecfe6d9294dc9e9dcf84bb09a7354cdb417fcccd19),None);
  ((0x26a7bf14474f1f12ea564e6ae83a7ab28bcd305bebf569927cd088b4e0ea85c249d837fa1ee1ddd792215396d2c10757,0x3a49d4b2878857f2a415a1ac0ef6ae1a9f555e121b52eeb60081e8800e569f350b5d4303cf1592bad2d8150564f1cc18,0x5d63aa4e03fca7770d76c34225a36df071b7c743646482c19a226f48cac85208d945867c2eff597c6614264cdf00688,(-0x14c77adfab7573cfb8f5b0aec2bbf174dc3d7aaf5d324a8e4ff901d2c39e1ee5e96dd77180c063b271aebe36465e1252)),None);
  ((0xa89a30d36121484298c6759f27ffe6ec6366706899e37d6166024b43a6d0be2e6a0255f1f4d45d038d08941334cd90d5,(-0x42e5454e6189f3aae8e2918c06fb3e2507ed86f0259109804abba3811c30fbf79831013d005688a5bede134b8be2fab4),0x6f0abcf4371c7dd815749d4ed894e1e3b05008cb32b22b5f55a21d1ee4a5dea9fe87175b158dd39d59ceb93ce33f9df9,0x3acc1ba92995afca61738a4b25b846c748c2ac24def05eb3a679657ca783b6c59cc455143e19de97a4bf2f61115b96e7),None);
  ((0xbb0a9e50f1db29658fbdba9095b1b22f1a0e7fcb9ec381ab32ee09453008b9cc5dab05bacb4abc0c6155f9f1060e0af9,0xd58e0c9a321117a5a38025e6934940d23cdfa53ba1f3782fb613164a5c8cd86f58a8db53c58abdda628aa47fe43f8475,0x88a883bb019117bc308005dae9f5378e92267206c248c782b6bbcdf6d1ed1bcee200199a6db8bd4e098aec9a57a48bfb,(-0x27f0d2ffab48fcfbfbf83b5ce968a6b291994455249ec8aa6e9e603c998165b9debf7917f3b38b3d782453aeb01e602d)),None);
  ((0x1584e36dd8a6780a0b4845cb8e829ca6709c534cf960a274cc6d656de6a6fe47cb28c9d255d3842a931cfaf37a86b253,(-0xa4bf8e05c9ae4563891f43ef2d156a616f464c5abd6993abb561e4022ae5b6fed72caca1b1bf175d46547699ed24834d),0x1cf124b58deb8b6de32dd5bfef8d4f27f3325f617dd5599db8f7ce907e3b1d5de717d8b3d5b0f1ec13c3e0066f82587,(-0x35ea0fbe885b1385a2d9a455b99dcb13e99e28aefab574e7e081a39bf5f217fe77e62739a856b9d32671b9df19247fb)),None);
  ((0xac9333180d3a1ede967cdc05ee5699fd3c590d07c6fbcedc49320686fe2d8635f531c744485cdd599b25a9c44afb89e8,(-0x3670d857d5b3dcb3f125642e8e4a384404087cb10999dafa675e4b898e10d1351fe964aad10a2230adfa41b490b24c63),0x7456214c0997e1c231ba09133a05802f3cfd15123585d10d683338b29e99451d56a712a4a450774a009dc7d2ec4e0e4e,(-0xe7ede51bf9c5350c67e834b14ba42764fd8a27d24e187d8834c2db01aa1c56f29b67b73b2aaaf705400a247c5ce9274)),None);
  ((0xc2c571794f4f9472c918f02bfaf6f67675d065f21eb729bc33c8a345281c9f96aa20a697f02a1020dac265c19a3ceb64,(-0x102ada17b7786b0e0be7b6165efa646319505abf9efcd3414cdef3a98c79e168a632d498d24ad6b866921be8e11ec3287),0x942fd843b334fef8c44d2cca36b2d8600dd4fab27a9a29dc0253ab4ed660047c8ebebcaef8b028df6da811f254a72afb,0x7a4f201e84817344905b9e93b4a9745578925d871af6a0391366cd7aa65c9b57df4ae4c73df14d494880098ca0880e8e),None);
  ((0xe160bbad2b15d69d71287dd9a6f2cef1cd84572eabdab9d25aba6bf2a0c99072adcaa7eddf422d6c6acacbdf23d138a1,0xcec781eddb41ca0b4ec59aedff0ed088fd7e4d00578803da0b52e17bea4256051ae696d8c6b5e4307810a0ac5f90a510,0xc66b2e73b13325b6e14c77a8e10ddce212ffb482271c74abf96aa8eda6fcca3a500518523428340de33386c44a90a7bd,(-0xc0672eb604ac76b650f38d7e47067b77145cf2fbe01f8ff6a8147c9b0715402d0f2d42de4fa45428e7855cc716093337)),None);
  ((0xeb88f5f9f06097ac181f9fafb38a9fcac89c2d686619d861b0b68d84d17960cdcf510668051cea982a2210ca2b920b7b,(-0x2aad8af74b0ffbfce02fcaa0ad33a6d96877b9250ab451ef0e262a655814d2f493cb84c4953ae497951ac231a05367063),0xd8b4bcdf253917357b0f648e7ba411619cd93d16f5f085ced6816b319f8f4e1bee5dba207dc1795a428572b7ca767a0a,0x7f005d11c40647593304fb527956947eed9d377fa9b5a12d8d4d7ea77c2406ab219bbb9723a05c26a8769b1448e683ad),None);
  ((0xd44450cebd598bd9569f9265c59de25c3ddb8d511f690f172a02bb209b5d794d3ffa1e931c4d8ce005edcefb34fe7ce5,0x6c15e96c7b065ace69ec1fdbe19557523b62df4a9b4b7e7c3f659f160597d44d1f171e67714a84386efa22a26f73ee20,0xb001381170f2c47f82808efaed1947c9106548c7d4a5bbf0b250caa7716d48f7426366cd377c570165978ec024337b1f,0x2cddc0833a7fb16952589e6a0cd01566cfed2004efca54de1b6271b8b3c25ffd944ae09b821f2a4a3865a02005a1365d),None);
  ((0x4a0f6bd5d32d4355cf3e182807f0f3a66884f6fb2d10c624837a2a64ce15bacd0011cf817d0c49e3686d36979083075d,0x3a1ab0bf91cbecf72d8d37e568cfdd95cf40e2030db5f6bcbb4424d78672cb4e2138cd464ba50871164c266bcfef44ed,0x156ceb456e915b5c6dad9c46f04f233da76021df0c0fcfbe04dd51eefc23a35f2463820296acb5b9ae1d41f4615bf1b6,0xfb219cfc4035464678ad0d7a9a77cfbb6e384e741787433f52a2994fb546fa567a54bb9b745b13bb0a162e584627c2c),None);
  ((0x5c809d9a9e1e3e9eb26a50f5c9bb38a5d94e502835e6ff82a6c3016b78ac1e082d74ec4b97bd3814be80c43df9d5aa62,0x3c7a0b2c9bf7fcb9b74fc88eb3ffdef01f273ba229c554ed1c282007c06b5ba16c6287c1c5baa57a5690a5e497d97bc4,0x216cb1e51d4ade9465ca2b254ebd7abcc82e8fa732d1804c7f8b407f7e403c96cf892a813d237e1ef53fde80ef2eda9f,(-0x3b72683744880eb166ee32bf0434d22348d947e69eec5a8f312e474ddf32057df583d08cfb31b26cc23cd20c427d2f)),None);
  ((0xb07c1a345f3f62548a56f3c0f15cf1fc7f67b717c50e101236930c8b3441d0c3682dbd558f4a1ec2169165f5002a2559,0xbfb1553d31deb5ac4ea0476d26cb56b2a95b9bd4a1c4a5a91eda80e2f951e74cf314557c6f311442f1f5451f63ea7c20,0x79aae03168621aab3546cc8395ad4bb95d3ef3c5a2597a8e7d3cf28ffbae881f4ddddb31412886466cb6faf5ff920a8a,(-0x3c236ffb677b8291a9220486118492eccbf8b4e9d5dba763f17ded4fa6bf81e4f483b6dd33b30ac5867238a4d42e8197)),None);
  ((0x2718126f92d176c1eef3d0e2b2e0aaba91aa3101876d63692a9068ea1e36a2c5e1b9be07bf51ef6d8cadab25f8aef5d5,(-0x48c0d7b215135e355e1e857f664db5b10a1bb76b21c34220565bc55220105d7cb58b913e326c136f31e3094e632dddfa),0x5f857e174fb3abb75b6effc121ea374279ffe060c5f51f2386cfa4dd5b2af136d123e2e32a4019898a4cef06b7e92de,(-0x15b9f8747fc2be077189eb06240805198f59e56b1f31268e9e55d1f490ab12fd35a203195048e1137a9bd90397b129ed)),None);
  ((0x53c756009a55a061bedcad1c5de1b944ab39cd9f8b6ad6ba1662cbf81dc3bf53067ff9b56e2d964b07df3185ab3bcdd9,(-0x1fdec7fc15598e05458e3a6406b5e120dbdc6b302edd536d6ef465759173381dc43d6cea56cee749a1116b359226d4c44),0x1b6adcfb35e7ded09e86a12b4a4df4db57f8b113040479dae7017c04f4e118fdd67c210021ea1bc83b7087712b75db9e,0x1fa61df5beadc759ed53077b4c7be771b440723a48642514dbb74e50c3906546e0bb58297dd29db8cf0c3cdac0c723ab),None);
  ((0x4998cc64d097ac35cf2305149e5be8b2b4184c063cdf5f27a3f7b3ac3999e9a70a3ae42e93b8c5e24feab62d11fcfd0,(-0xd95c72a278e8b7092ecf7eb6962270e3ba0186294184e9aa6b3727e2539802d5a170d78f4e2d82e0d648c118f1d3c398),0x15287fc4d9df08788af310597a2ce9906c2bf3bef8512ee78ac39a344c960fe6c33ae9fc36a0fecf0b624a1e423f76,(-0x1e4350bd8006a9d343696cd3d3321b6b9626995b6cb7b69998c641eeacf46ceb21b660fef7aea247d1116a07b909fdc)),None);
  ((0x3cd7f6c3438a6658c5831223878234babdbe84c2a702a4fc6e5f3bc471ccf4270c0d51bd69572192d6914f529f734d11,(-0x25932b1877d2201d24f021b6d81c2afc308a94ef8f3bbc79b4993bf50240ab8ac0daed2130ad529398d992f2aaaa837b1),0xe75f1dbf1802d2f790d75e2e3bef8f5c47f42cf3905902c44cd05ad4221f44df50470e8a96d3829868c948a0f5467a6,0x1258d57053f49f8b928cde42b7218f694c5ccb7024f5e1cb9ebf4339c9f776275e387edbf6dbe0fa9c1d3ee80afb7d1d),None);
  ((0x6ecaddbf6b2237fd510ec3de68fc2c3aa7a37804fcdd0099d4019c13d3c877128ec85283aa2c9bf44560ff71580b078,(-0x13a35159b59be22b7e3101fddc4d9cd841f0784e03259f0d0c098f35297584f5c91416d1a52f08869fb7038d9ef01d1f0),0x2ff2f753323a88382bfd24f35cb75e41dd220d8d7a1a1fc40d716f40d294e8cf86c8c8049c0158b5a479d5e133968f,(-0x1cb9da1d8b82420145d79f4343af7d19fcf17cb11bc327e78e14a3b6cbc438143e3e9c0732b0a2b4dceea7cd2da3e4f)),None);
  ((0x663dd8aacf86a281b109fc1cb729a90e364ad9cd4c85109e47974f2a487d8ab9e63bc79537598f33745e72f8ef7b9cf5,(-0x1a72cf394224b1612804d3b9a54f48dd659c29353a37460bf0df462a65b58c33a9b27f49780b0a1352d391515b5b330fc),0x28d557991626dfd4442804454593a9ba5c7e62807ff97e97d4135d0f144f2d244849abfe3d6d004c0add3afe15a27c8c,0x196f2497c0a567f09381c2478855e8c9f260dfd60f0323b474db5429f5882880719c35317a2effee673cdbc38c861312),None);
  ((0x3894b2a3940e47852075f9ad34577164c1b009ea6c739ce3eb99d8a04c7cfb5c36f9feb9a49ea053b0ac83936e9175a8,(-0x12dde2dd7f50e341fccc6ec78c26e06b01ac85b67aef61d785c538845f2fc94840e92ab6b8539ed866a9a678e2c1a6848),0xc8164869a915236ab65ddcdb0aea8e534ef8600be1b23c9c3744a9b2e77b8d28ec9108de3f258c74f0873d52b0035d4,(-0xb73359dd4baff6bcb356e12650bddeb053121b94c1b3dffe9e24e2d1e36aae295e0939b6fc3297ca01c0282c8f9e589)),None);
  ((0xa95eb61ed4cd671a9c3a4ec230b7f204802f27f07d2aa8219d6f24613995834a7a93732578445caad8c914bba3715927,(-0x197aa6167bc1b078d188d054a7081f3de758460b101a3b00e3721f56c604196a2584ce60cce3bed465d803d5a79cf900d),0x700e2f7ef52b534379728ec01d7a6bb76e0994095eeee4af3798e7a482611f67876330f27afd8504e8aeafcd4cb21cf1,(-0xdae97aa0707404ce78b8506fd32dadd5638199f4036a6f88f54ef6f950d12e5a37188026e7bc48fc8d680f91c728b4b)),None);
  ((0x884e62cae6ae6bb70ad58ce601f3e81c91087655ae1e08cde328bcbccda6c5511c252f68c07a651527b6ccd3ac2285d9,(-0x1f8ad80815bcb71b99b32b7d9a911020046a074bae1ba9e266aa2b2c1d03bb1b7fba284b1b12cd0f7c247a94c24295eb7),0x489360f7eeddde2a84a5816258bbc52173db8f43c7cb2131e656d65f6b553b8ebad52b57c35022c278917f50ad183d74,0x4bd589276465ebbe82d266015b1045d2cceef1508baa16df88c9a664e782b4d1badf986b2631cbe4f5bbb429b0031e82),None);
  ((0x720a3c641dcc418038655ba0f72efc02c942aaa71ba547f608e325c95ab545fb3c1911ae85ab514475b38b93434adc7,(-0x6a4ae3ae6319a091a9d0d613b751c89fd189077700e17b92894a4e6b76c46d100e4166560a28b24d61a79049aa85af72),0x32cd1e31f09b536a59fdddf198bf66e5b927c065d0b3bcb028ba3b675bb5ab68a099cccaaf528fd5ce6c1f8dd074a6,(-0x1f11a84ea91d4e36dbe6eb0f717dbae31563078ab0f6310bb7e3cd2d6b7e7a6844bb0af28566142762ecae8a9889eff)),None);
  ((0xb49a901509190138a40e802df8029adb74eedad5c6bf2dd7c8e8381d3490326ac303910849695761062c1425273c4205,(-0x34d84c5fed56bd1dbe81fca0762d67c239f10cb920b0b9a6ec4c3c6a705e1459cb8f17df2c9155b4e7f4641d29dc51d4),0x7f69b7ef3f31c7c3bea676154f41591d1c0283292c77ed10eee1fe05250c29ada7c0c9e7ff7270dfa9e43a75fd757943,0x61959b558ab5898963f9fac4be7d746ff8db96198a0a211409f009d0c60c307d2d574bd593682469ccaa0589419d65d5),None);
  ((0xeb07bc770c42e94b2d73dff17d3b56c56e88288fd573a6c8a108627b84741fee4fceca99358af69885be590bfcc2039,0x425c47ee850983337c48da069a16d079dfd8bc3171c961f74b2b20da270c3fd88a01adfc8ea9cc0e7445cb81f19916d,0xd7c7343e69c495577500df7e3964e88d80358d2d89aef0728f49efc6d3eeb6b77cf18754cbf20f24daa9734f9565d4,(-0xcd3ce87a62deee7f6960202c0170b2a292ca642c3e45c678e325d7f6a3d0da1fb06496e15c06996b5a7c386d9a1eba8)),None);
  ((0xe7b0018c933eafa74ce3e763872c7c1b129b600767ff9a1405ce48aaafba9da2eb753ebf6bf20b824377b401ee3594b4,(-0x221384b4cfd566793b3b8b208e970deca98b993db3feafd86f3a91a34164bee004e776832c0c974d51a4a79566469d6f8),0xd1af1bcdd307fd89516d7f9d57bd23a312aa93b69eaaa7f3bc9e51099ff9ae59330ace17c74d26f4bbebeace74d96b82,0xc299ba5353874152387c593b61a9686682df2c1b1d2b6966372d1ab481abc0d644af16cd29a1a691594e90db1d8719ca),None);
  ((0xf45d7056c49f9c9e6d3ac8bf049902434130c68e7ea321734e7920147a86af35911efdbbabaf012eeb6d79925c0764fe,0xc01fc81a01bb85db7c30e344d7da2bcb4d5d73b9f1726709d09220cfba97880e8c929ec841ded5a3676c69aa221ef369,0xe9424040372727fa26a010bd5292316d56106d889052e4e7eb47d04ee94dce79228f913913d7c0ef0406716973f8cb42,(-0xa427463f20b5a90300b2605b0643671b41831646b8130685baf1198576d54ad79324da3a324a1b6fd583156d9b303c03)),None);
  ((0x7c243b0315ab97f44cf878c1091bfcb50bfe16c3d493fa111c676fbad3c214c660d629c2be036a2d04388ea132e50453,(-0x13ce0463a6fc4fe6e24afbae678b688c3209ece7c58d4a2e751dac54cc41d2c23c793cd4f31489dc4ca2efe5ea1fbc02b),0x3c331e4ba376bf7e032c2003bbcb2f18804c09b7ff22c143561a787c1ccd13ef73c0367546a5faf697169e96ebf4237f,0x3b5e89a829b0da9cbc138a80b073e365ca9e2390d516f49384a3f8e00e4e63008738047444d1aa479ba2971bce598954),None);
  ((0x64dc7295e7d736eeadad6c67667aa6872562c8895939bc305ebba0ccf3e607e2a208890bf3a7e1f7b12b1391fa5ab88d,(-0x19389fdb2b93064170707c1af216e68268b49c5adc0b8ea5cd9bd02a201a8e87320f97aa4ea1bfaf19543ca9720ecb3b),0x27bcf75a4210771441529d57c8547f459338291ad24fa191436078b8793c768e3427ab3beeb72cac3e3b3651226b71bf,(-0xb3cb11c0421d49c6681e99750cf05bbb683e327e69487dec510758add76d717b172a99ceab86fb2852a8c60d6c25b56)),None);
  ((0xe1297c0c06c70c773372e08f473be4c44125764b6d3e4ed29e601a68af2ef93892a450b3487142fcd6334e0ba492c716,(-0x71d951c86a0793903c1b9b52a3238f39974d85e02b980c53fd4f4ac344054514b759778ba2cff495fc48ffae34e418db),0xc609f2c61bdfb6ccfd88fde5ddc2b7346ee504316e91271b042f23f818d993ae4ecd49bdab6c575dd708bfabf9073326,(-0x50e5d0b453081731228ca916d61fabef60df3cb14f1302296d72499bef5a7ad7e9263f9e2666211db19ee57c15235f3d)),None);
  ((0x8b1b9cd13f03ffe77be2f2887e34f34212d4a083ed7f004b7745720050c442ca407362035bbaf072187ea5aa5a4095e6,(-0x18f0f0724f01ead68a8955419f2e91f04ea0f9ea215ed3a3da8274f7583a5f4249ac952a01fb78a98c42a62c564684fd3),0x4b96ff45aea152922f498438303410d3775318f8c394ad584bccb9417f6f575172c7eb9464401ac41bb8aba23c65b59a,0x133829652529962683b6e110da368ca75b7ab243657655ae22251d83b3f63c3c0d7694c93f8bb8cab59d98e50c687db0),None);
  ((0x88c0c573c9f85993e73b19662e6a8ac1ab37016172925f9f0aff9e4537e16bb124ed92f12b75f8329ae246384b444cb4,(-0xdd5fcdfe06fce339057bbc35dcd9eccc66d125329aabf4892dd16254658bbcf467537a1bb39c8eede0f2b52769ae29cf),0x490d62f3cc923cead1dfadfd4dc9e519b6f328e78fc3809e8073008f175b320ef30787ac89e0537107d2c811438cbd86,0x57b2ab0a6ce0c4ed24f894a613554c93e83444b6b5e1e0323039bd960e81723edf3483655e1cbcdd7737e43e68efe68e),None);
  ((0x9e4dc32e350eceb1623bc2abfaddbd7c1c9f3694d1f5d943dfe369a216fe9aa5457c514a5307b730535833b19f4b68b6,0xccfed471836cb9754a7bd834d5778b60305bee84df96eaf4695767ea7af35218cfddbc045c62eab492a57d9aa2dc3d45,0x61e4148c08199f36f72a82167220076ad0a9f49e3b7170296a20cbba2781aec0c36283a0619bf7ce38aae33e818c17af,(-0x750278fe8574f6ce55ec611c8c7562bc9755b00f0255b2688818d558f855502eac5653411c6351c7f2899eb61f3a2cdc)),None);
  ((0x6ff80b5b0afb5bd9f40adca0c29e394e6b7cb32fee5c619e3582b62c908d85039dac3e483cb5ecd12d7634675db12db9,(-0x10da5f8e802ae6da62471b3e2c9645647f71b0fbd0160f2555528e936dbadb3f92d7af55a46a4ed7faa1354e52cc78d36),0x30f90a2ef46c33fb60fae245945706dd8ceae6a93a7863257da9388a233a08bf4f835d57b281834cbc153c6888c0fbc4,0x288d605d417f55263f3074e12925ae6bf2bef81e3c686c30f26f103f65c637616a6a7c56e9da38ba1b28f2aeeaef752f),None);
  ((0xbf14ed9363ceb4f29d4f9ea794afc96de7a07131eeeb342fd21ee90e0a375e4bb94e406d19faff152b312aaf1fa833eb,0x2d69618b843c5b7c9936aad72118617d1e9dbe393859885b7a1043706a42658c512f47efaf2597f12f0277db35846518,0x8ea03c37ea7045f6cdfbeff04b46dbca6aa60d0d9debaa6929b4069ec97d12ad9ad124bd23ed02f6c8fbc9585bfc0334,(-0x441aa005c5b82cd111ae54129eba51035cf582e2ddfb93c5ebe6bc0c3d7b26a97ea911e0fcb4746f8710fcbd4410f638)),None);
  ((0xb8838faec7fe9976161c3753b4f84d9176f4cf9945e977a0d4f1a384f1a1bea0180584068604ef002263086f804f8531,(-0x6c562617d6883bfa8e3129b9f9019781ad88423a728efba35f2630d11b6155c4508906b95fd3f7fe393a213a805aa4d8),0x84fd62279d0365edb86b896d00acfa7ff194af083eabfafb88eee59ddb1cd649b13b0542845d528af4d789d31e359545,0x2994866f6018024da69e98463ceeed70eeaa13f069b91a21bab65009d9cab5faf5ed75890b08701b5920a752bb9a5a98),None);
  ((0x551e4dbf070c80165ea129da551a53fd47d585fbdf729f900918c4c8084ac83b82e26a8cd089cc37294fcc7677340ab9,(-0xbd81232c2e35b1a4486b418a390903569f9ce558ea29b00b784a5d653a61c3874c94e4c00dd9ee4c58d9d88a086b5db9),0x1c4d23372b106cc5e9fb797c6eb548ea2288040efcc81a0ec2b544eae32bf0516240c97d540ef59d2d720387a376d733,(-0x168b58ae96b53f22bbf9d2ee58ed15eb237127d1a1f81478e6520a6d6516adcd258911debfaab93fc46909d2aea50362)),None);
  ((0xc215b4762d1cc8e29cfe04bd3c25be37e6896094c1ed19d9b738d6ace69055bdb30abd0cda238273951ca8fa41ab9544,(-0xbefd8a2db287c8135d5c7742a8f3a43dff87a3ca81b478f4b7432254358ebbc771a2821304a1a306ef627a1ea170c4cb),0x9324e75a36f96d2e8419c065c17210a87d970bb37cd323542c3a2a7590209ef4900f34df25c43c491c56d3f4e6832f60,0x8c60fe46b3e0895a37b60a8aea3250c057c1770aee336e57a933a6d6b746a6fa5b743314787357b6f6c720546c07966),None);
  ((0x9dcc1a5fbd6bcb953e6b33c79937c6ba8f4078fe982f994c132c6f84d9fb8eddd38b0fa4c2e729f8fc185945d0c3b365,(-0x16b72cecef9e0ae4b896cbc34df42bad387e8c958d9213b576e8c3829632d7b2fe1dd7029bc95a2396db001e999149269),0x6143fb1379a3b1c98beeb9cda0f213fa56042417eff6d43898a46523e9d0022e4bc82ca39cb44e1bfea176b871a2ddb7,0x2dde2ecea657293905cd7fc0da94422f17089013d6d6079149c30b7c966c66aa666b13184adc4f2feef775928621ad65),None);
  ((0x321b1cd87c966c000974e7bf3dbfca0ce0229257d176c36ad38ce6a4143487381408368cfa66603f6e742a8e0d14cbf4,(-0x6d7e7156b67343a888280d93c1d5302188f9a70c03937467424619e6a6bc0234d56dc9a09726406e74bca799619322f3),0x9ce9a23a9951c3e2dcbfc53e533371749ed817c52d7e31d78c8a8e2273cb45e3aff7ccbf1d7eca3a16ba7b8569effe3,0x5cc47fa00c262bc65c00442f66dfce4657e0dfcd209bb9bf1898d49b6a2957e862044c4f894bc682bee85359da8e807),None);
  ((0x15b6f4b7be37be914dc0d77872c8a002745a3036a9f6a92493b65b8b73699c558522a8c0fbf1bc6ff6472cbba01d6e80,(-0x53993a3c5c067c24872a1e9642d87790615929eaf4b061cf67b2e0158ba7026bf85d919eac212e4bd3114e73bcb55208),0x1d786e70466630291aa6c84063f731d427940e26416711784d2a135db27bbed2667927bfa258377e2fce6c5e69d4176,(-0x78c351c0db9dd7da8aa7abc9a55658f695a852c36703d8ae99e19fdf427053391a08924ba2f99eb1020dec8ce7b166b)),None);
  ((0xe1ca4b0c72459875bcff10ae2318e8738be1a0fcec0a9b356e76b0bfe914974ba7b00418b9db2fed3ca93914bafae796,0x23cceb5c5e5fe9ab4041a46606f5daf7cbf498bd87cfc6d20f290b58b52a09022514eb30ded25b5e1c4036401248247d,0xc72537c66682f76340e3f453fec7d7bd1a619dc9d6c33630adc751a856d372d9b4b645d16e36cd8648b2c813482fc371,0x169e221def5991f6b600379f14441d02f178c85e7f72a86ab03af61c557ef27f207f2149629741a1e5224b9786eb8744),None);
  ((0xbd2e443799414886367c022bf043adf40391d3dbba7299104cea042c26aa3e6dd079d8db082722262af266148f5dedfb,(-0x85352c52714361d693f4130ff2303182e1e8aaf0108acd50de3bab8ab7da7b6328839ce0c80f9ad8a49ec320412f8ffc),0x8bcd5916ae730e0a21023fb948d2384678996e67d44d7da72d1adaea60734853997ca112114f5ac3fe57f73eef9956d7,(-0x4b08baf410a56b1d3043e73af96204b0670b794a9b9845251ffb021745400dd23fc67197083c11b8f1034d60fa5815ee)),None);
  ((0x4da7b58da7f433b4be648450cad0993ffdf0575e3917a99cb796631efcd4f0ac75136b4afe28c1f2a44a7be72109fabe,(-0x2b965f653d1f7b5dce72092378a14c3b2404e17c26a0294ec52f64a0ec09d04b8ca4d15b24dc0dd7e6a448bc7cf775753),0x178e5115969ba597f2a7ed7984a1afd8cd079595c3d459d579bb52dd6a9d17c5124633b022aaf6e476314b96b5f57f32,0x35626172756448abd4013a73dd2bc154db46da9446bba78ecfac208afa5f7baee460ef57224389109fc0db35dcf29443),None);
  ((0xf7ddfcaf26a5c378f3b9950b1038ae80950b0cc9f5b589a3ac86add4faa9a72da694c6e342d6f77f1640786bf456a166,0x6c4a514c9118bc617cb78943023753efbc44c204c97050661d7a91abfa8429e85abd6294d3029857e598c7e6e6e625f1,0xeffe1e183c65e5531a71ec96bb15b194b6d08a6bc1a9751a83a2ab1983e57a5df192f283cc326991e53cdf358890872a,(-0xa9acf5f8a13942a9cb404dfde1f9d5bc58965eb1387bb537c5913be28c91f92b678443794dcbec8b5f9c1057e197ad75)),None);
  ((0x69211726d9e3863359c1b64a14e0c4e92e1bdf12c9abe4defd2f865f210b5a9e5dd6b233a4f361dc7a0f2ca155ba9b68,(-0x2b4392868838039a7570f6a1f59998e9f5a85cd979cc992b38985b981d05143eb45cd5228f969bde0232656c86e893967),0x2b2c2944d8d8d1cb03faa0938c12920f2e4fa2d3a40d5f9c6678133fef3d3dfd990ba1b9f2a6ea5cea1efb0eb0ca9105,0x3647751307a65c8a5c06422900c6f4755e25793021da16885c60770b1305434c630a95417e48b0de9a940904ebb1b1a9),None);
  ((0x15583a44755b413eb0e3f14e613cb3cea588822b778b6086328447508a1ad7e5907cde669c74108c3816ff734a0dc6dc,(-0x944b167f12838f5c6dca1041d818f4d659fe8e24bc67520f1e27a07c4859bd5088b00a61c1ab5b789c8410015c533120),0x1c797f75794beed0bf69decc52986bbcabadf9aaa16f9118546ff38df0df1843d0871082b2850fa3bbb29e07a02426f,0x7ce8706b955ac07c06ffdfefe765d40213fdb3e151b6cc4e794a8ed60b7a133239c9b4b28e101085cb7e51a3ab2fd60),None);
  ((0xb9d9299e37825fef4179ea19b51ea5a13d2f0d96cd9d46a5e53a6eab234fdfc54b2a46a12cb8d554b4a50da7b2a441f1,0xe4a1b8b4198e7c6608ae888608f7e9cdb44934e9c9ae06c9dd64b6b3ad17f38c607bdc9a44031ff82b124fc45af414b8,0x86eb965e4138993ec3f18af447e8e1b3d4ba45b235d20b9ed72e5016f44c62bd550c584688294e9f06f29b0d36050108,(-0x6d8e0af96868ee95841cd6c25a88bd99d7974ff78d5b915061c5e8326ca7103e122bd28dd6ba24f4b010f6da7400e85a)),None);
  ((0x863d0a990231a976458756c16851decb00796a69f0ae882ccff473fe5f17071169d9c4c553b5a9dcaf240071853ce5ed,(-0x8df567a820d8e928624ead95ea083a37ee9c5e9a4ce61f483ca91a135265fba94d6eedfd3c8740c2d8b5f5703df325c8),0x4663f5a63ba758b213c56e67a8785530e05e491f44dd0dbc25110525b3e94b25dead1d3d750341c02e558af9736137d4,(-0x16d0648017ece7777a18d38a08636becfaac8273b0f4d81c2132748ce48f42b48a2040c7810641e2a9b364a978c02315)),None);
  ((0x90beb7549420a2bea86db83716e4baa2f03338afa9c148420c6516b1c1caa089ec55101283968458804e757ab665ebcd,(-0x142f82e3ca5f9788510e3bf620a373237087068e787d06bf0625d05d558b7d372301c66ab997e61250a1476984b46d096),0x51d71c53cb7a9f40444a945c5ac5c7f5701726add8193ce262bca9e003546cffae4f74c7455a32f0112da3f048401444,0x55b07983ba5609c12ea93ee5c38c447a0929004b2ed3c6d0d068a1d16be8135add6289132fac8f115c1f3dd13f1b3359),None);
  ((0x1412783a99d00fb6281c96822246a09db89c8449fc1b9d196ce0eccff3194721d8eb153eb9f65e8336cc121fb2608bcf,(-0x1781dae9b5c8fb72db855d205555415601d92864c486250a1c79eaf577b3ee7107b87f9cb5b55e6c6c9e5fe61ae0857c),0x192e41e48bd2153c94e5b8fbea042cd829d6141069d56a072bd03e0794f6eaa060f32a7a29c1274ec364170c14c0b8c,0x2e15fed52d111094ac272ba9b60cefe13a8331e648c546790f69f51e9f08c95f04a2dac7215b0a6c6d76ccd163f7757),None);
  ((0xe901689cfe94badb94ab5bc8e326300695846afb4a2b3c99fd7030286f009153c735b97c95851d43e27f3d2f6c89f17b,0xca5850a577afacaab1890ec5ca19e9c0d7df7903e835efb4b5bf682912a1e6c53e52e5ce6964ce1d694f8bae10381c52,0xd413906fc364a86d4498b40721c41fc1b1b40b58d2a344c785423e2695c92384d2428b42eb21ec94b3f4981f186fb3e0,(-0xc2c428d7d89207d776b2616ecfe0ccdf74c07339f7b28a70684b9d1abe52e47287a28cde9c12c91624486e1b62747c25)),None);
  ((0x42fcdefc128cf69a485375243fd437fed3d587e573d9283cd8fdcefe85c169029154d7e4095725d480480fad617029fe,(-0x2b48bcafa0d54fa1733d6459730e35736f1392b96bf8e3dd4a5bca08e7b6ace963317495fb0259b984c9bec72409fe5b0),0x11875cc1bc0f5d0e0f9aa230cc384c7c1470aaec8a034de31782d61f9d350e0c289f3afb682bffaff32c5d38ccd67ca4,0x30d2f27d9fe5c1698d8c534b5dcea818137d5e0a27a127065d6f7141cc38a88915a020a4855ec1f5783ef9aeef2e1006),None);
  ((0xa20475626ebd3edc506707d649718353302c142cb97ef58c24a5f6ffbbe71041763dbdf62e227662dc3768655bff2133,0x1ab5c239d8a4e5742be4ac95af3dd45ddf6d958bcf708666c850b34ae79f4119ab756d6f2d238e678b36f558b1aa1dbd,0x6689a4a4750e188ac0e5993a65888c5d4c2bb15841df4a143a78fcd03d388897a2e92b4008d929276d131bd799d570e6,(-0x1244165397fe58b8f1e6016136a10c7a91145c8ea4e3cbb0857da1d02a02d8504c23e20a85098d7630024b20bfe20367)),None);
  ((0x69fe4a6af99af758622a9d9165060c89f8c38f1da95cbc09fb6573169ac0ab9ac0f85bb786c954c2e10270a52535b5bf,(-0x30977ebba9efd96f1e84445f40e36411ca4c933715ecb35a010c684bbdf5ea6a73a3b536ffc4f02fe3f8613ba7244720),0x2be295a382aa736a929c82bc540ea6d5808f11d766c9d5663d21ed1997dc22b5d108854f1037e016e442799db471468b,(-0x1378848274b8a59644700b75cce5e0390f014f3ddf39b7badd858a766db23efc2be991e853aadb6e3dddb88455cb30ea)),None);
  ((0xe675fe752d30572f18dfec40a5c30ec46df5e46bda6060cc458da2057d4e4856c3084212754f0b4521ec6aba9db28850,(-0xf98d3f1a1c149a4897f268906e08c111004107d14ae74c8b7839e9328638c4f92b7f4071695170d2da9c74cc89cb6f7),0xcf783b9d213ae62694ea476290895774b477cfdca6bad5e0f78f1b5da02c99fb80b1ed06c9de8cbd2b39d7425a4a6750,(-0x5fcf94d68ee0be9c6aca0c56a6389f28d9ce672197acf83ab3aa0d189a11dda60913f07158bf304880aefb422bc859f0)),None);
  ((0x45df0ecd08194b984f520f91fd9cc36a4867d712981599ac194db9ef9ac342b611e2c5eb5558d1da755b8ef3dd5c9068,(-0x2516634fc61fc4d013eaea46f151eeaecd7d72dbe7a3090720acff5cf8f7eb1a73004b95d3dcac76a0f2cdebaca823dc3),0x13120055506ccfea8b25bf31353678199a25d3b1f325b540dbd7cb726aff2877216145e769c8b77677a7d04551ebc03c,0x1ad23f5900f58f99f4850f250006014f4f3994d9ee49ef5819bab21e1c0c5d47c4658b8f88ae8265c6168b6c1488958),None);
  ((0xa40f47a346f0b61db30293277a2eef29b897777b13485f6adadd4bc478798d15add41d82069bd6ee205e4bb5a957a6e7,(-0x1cef755e6a627f2f98d131c366c2b64b99ee4bb26989d2c286de49f5cc84ae2d498c5032f2ba0a6cd4215677247855009),0x692394b2ac12b308540b2fe36d37094051a83ba24639c303bf9e046171f327caee450b57f843d23b2b401e5e1962edd8,0x8304b7120b04efacc272a1a8f0bb7c1a643db472097f3ae9473a9c74a216e329da026a353c9a615131032dced9092a82),None);
  ((0xae0520f66e07888a908774a7cc70f9646ff5c5ec155d2677074788a2f3c40f9af254f43cb77e213186ac7faea9126ebf,0x43f67624c267cf037073877edf1a96017b351d9a5f86ec43fbbfdb2eb24486faa219a04dfd31de3db8701d335a86f434,0x764af8e94b7112a139c94fde1e9189401209df34b0b500bdfa47e03181c2e4f889e736e21c9768d496aa81d7d2c0a74e,0x5c89ae755e3ca8f6c12a04e903cc506d1db7cc39ad3ae1164f68b89066ef9c4b831aed20653f18d89632db9caca73fc),None);
  ((0x7929b9ef0be5aa76562131cf734c058a7f57bc207e62c276a3dbed680e1c2e87fbee6732fd316e7cdb7056ffe84cd256,0x5e0d5a2528bd3798fd298df1a59f5976295627fee28ef805c12433938d3a15ba8a78b24f89a450912c35f111e6f08f10,0x395878910edc491d9f13d3d97007f456657acf37e2685c4db05949b9960c7a9f7b509e70ff36d2aba3a76800ad387030,(-0x3eb7d00fb498b2bac85923fd135e32b839850325618ab51120cca44c32a77702c991e4228689c7e5e02b29c09f4a394c)),None);
  ((0xcf6acbdf833d4fd45b84c791221b7d49f74d41705369fdc665faa79f61e59216a413ed721d61223ff2351d53e4a3ccec,0x1bf9eb523dfa9405b42f73f5f16ef03f93ad4b5f2b0185184b1b682a6dfe34759dfd9894a95a3af02860feb0fc9ad8a9,0xa80de240edb21328ac90303078eed07bafa77a5faafc63d00626b47a38ed290b94f63b8eb923e6843ad59aaa7203fda6,0x2a00d0f86f75cd9c0b3d4e64be07dd1867985d43d60f8f5ac26161aebc01157d570dc0cb30aa03963eb9f62e2f744a53),None);
  ((0x5aa7dbbd5001433fce429b618263a4d46747397d6a087a716eac7c7055b6b4012550e9413f889f9d25432e9e8b753c49,0x1882145dc4ce6ffb64c5879915ef842a1bd9ff671955b67c3ecb9de0a154dd6e373c275b43a3b8483076eb402378c8c3,0x201a749189dcb7cffe33314d462c2477996fb11d55ac36871579f6aaf6f3573d7f58698347ec70985713963fc193ae4a,(-0x30debf67ac66a635e0c2b1b2fe604dab106696b106c6e958e59d5eb175c8cdea2437dca459f3393ad6b316cf67e2dba8)),None);
  ((0xd651812450085a297d4e4860833632f060a8dce73575a3c63f1c29c713fb22921367621f83151c866f8d2b6b73ae73f5,(-0x16b4605455f172c2349c90f913bdf21e76217a11d04ad459d6dbedae0a9cf7d1abe9717057f04239ed084a627596dad70),0xb36c5ddbafee39d571fc911efc1139cce7a2ba37b3d5e1b39fcecf46ce8ddc7b658cd7f08ed11c36d7fc7ca1b144e345,0x936b3982f40278e77713eff7ef9472d6b163e4b58be3d840726175290b70a15fd635661b3e58fe044b4f3939efe96b97),None);
  ((0x64c81704305e924e5a5bef0952965a2b3953210b2772c67fa7f4ea0933d1f21f2cf52792bd977b452a9b6994e2203cec,(-0x177e8380d601ed533d6e6439ec8e280d1020cffc0635411c05b20b55f135d2a6a7abee681e0e896a6f5f17be74d287f3),0x27acee5f3e6736d45b6742e145f3f2b3579b328db062b3da15e0b2aeca007595c7da853399af364c8f904625788efd59,(-0x45f17391acbf6c76051ac94b30e0186070c220ae1f9a9488afc86e23e591ad43fd0a2d27bd2125b92a2616b5f2a6f06d)),None);
  ((0x2f8ab5686795f1b64a934f4d213dc800f21a47e7d774ea0218b1e138a95e31929bdbd1278052a9190341fd71d52d2307,(-0x27b86d359a2e9f8aacfac0d5ae3aa8ecb9b89f4a7086758f92ad3a95c8e26fd3ef3866da783b52ee887637423279fcdc6),0x8d439c46b258977e374a7d4a99e193a33f4639472cb32facf33cb076d8dde69a2c278659206a49c2a30a6702e3afec9,0xec09cea5c42f63569bce519faa46df95f569afee99bc8bbf69bdb1bf56a9c38bd7438d835029f725819d3d6e5221ea5),None);
  ((0x318277ef64fbb04488f1eebbf7a906ecdf2f521d0cbaf59e4bb3a052009d31f118904c07c29c8e983c01b2061b86f087,(-0x105ad9a7eae4b5f230837b947fafc8f06bde269f0a481155366354d01f7fe343f961008a90ad86d860df7ef9752c8d535),0x9933467abfb58d8f5b0238bb6249b1bf82cdcd0eeecc1c1bcaaab8a7433d7c7cdd51614183efc662da81b1c7f1ffd0d,(-0xd0152ad9640281db5c8bba3843a051b4d9730569e9aa05f394600cf4901588d4bb0fbd856d328b12f501afd882de9bf)),None);
  ((0x1d9cfe6935028692928a7d50e175cedd78bae632469408263e295b859efc7cf4283729efd668be60fc5c5d1981d941fc,(-0x250a9e00ababa4007d996ec6d2e24e40b7465d86429118fe30252d0251a0e3290767b01cae326022acdf1162ed836f177),0x36cf1eae3101dfec1ed43f325a42b92ec10d4d2e378c57e672a8303dc449afc5ad03b250ee1f96fdc6f733601b5c7e3,0x7bba8bafb7e2143fb50a77f5bd13da0bf3b39a5c3ef049ae4236d8a5312f4ef80ac7feeac3b1e80524ac7cedecc3d09),None);
  ((0x820bc135cf6d317f927f9ff4b8302b0a019342cbaca7a69794885ed7151325bdde9f178b99b43c63241892a1fea38af4,(-0x130509105e08620499a3ecfc94093ba1b0a0559657ad0f46f41545200ab7924a714c472b21f568495a193ec963fa9f3d8),0x420ff0c4d31ce7ba01aad3c2e13f33ea43418f068ab97bd6505a796144b6acd117068de1e51df662129466f9b3424f39,0x11b7256a45390d9671e9a7557984226ce5be4099b3f677d0d436de7f82247e6ce9d1b386f1afe172c6109eea4c49ca4),None);
  ((0xf5567425523622cf8b3f92877fdc81f2e63772c12851e7f0f1510072cde4be218a66296a8d972d582f90bf4304387a73,(-0xf8df456eab1dd67a4225ac155a62d0b98706bebd36d8b2225d1e9940c0ccef6c0790769e40e07eca02850a296080c012),0xeb1e9781ad20b2f291921d1d547061dd05e6c205fb769f6f6f531b654572a923c38727dc423b45921d59321c45772503,0x50728c0037ab9d6d3d62f15e2ac7f3ca425ac729bb3073d8e7e7a95cd3842ed5e7c4fba886b375a6f4d9043978052c64),None);
  ((0x28dac3668d5dd49bcef558d4a7167542bd34aebce4ae9f5d4ef78f15684ac60a13f99ae78f1c6423edeecfba1419557,(-0x48f6a3d220e71bac254360b78be4592f3eeba470c85769f0b9c92ae8baca799b92fdda9a88917ea4d8c324de25e78f0f),0x68518016bfb7ab0b0c46da83afb669d576d81974a6ff048b2ff4c8aa580909b6a6d874944051b2debb263c389f1c5,(-0xf200eb376cbb85fec5c77b556851c2d3522344579b472d9e7b5c905fd67d316300c15af6c1cea475c1d4b2705facdc)),None);
  ((0x676cebf86b1231e532b1e49654d6352800e365249de165f4952c5f9a580f1fdf2341f2d0703209be8d69dc4c937519d4,(-0xfa391e54f1963d493bdeff2e20a95526c48acd1412091666d1e3dc046f1a67e192bbe36e6fea1832e58babdcc4f73877),0x29c8d439d94501238fd19a2f4fc8373e54f3a349514983d43c749d884f6796c5eb8c6684d95c9df9db9c5bb574054d5e,0x3f5ee77dbefb38b815200f4737da345772c48753b3aec657ce80322877e9516d0a8346dede700b36a6f3707b9be4f43e),None);
  ((0x8714a34d6d604caa17b753a4b9ce2f4f2527af623d34a07fc6997984ceb1e09ef841331d3130fb011e046e3c222192ed,0x2492d47f2c6b5eec6b61f45af9e894e344943a7c430e28721aa2b6c81598bb059bf8d24f0f787445e5eada217bc1c65,0x4746c5e595a0589afbe0ece4f539e9a290f1307044441495eda5fb0ffbcd7b1cc15003edee38d521932078323bf3212b,(-0x50d01dad3374dbd65eea69c52a37c6cb8bd696e4252d06f74eca5eb6a8d0db2cdecff6eacfd680b317740087d693719)),None);
  ((0xe37481d979659af15dcdc81369b54702e250cf5dec73320c5453dafa35cbba808c71ef3e5aaec8c6cd80d478d76d666b,0x147a51898cad051ac3a117067168f8ca24a1d25a013d6d2d0d19c6e0917b6d4a2dd068c54823e4513f13c8810e99d6a73,0xca17d34d9c3d19f3e51115d5f477dd98eca3b2a3a5a844bfda49bc80a73529d0e614e66668d5554143c531d6242d3700,0x12e0455857172dfa06f6e3f7c42a6f17a271c82c0c479bf4a131760d0bcbe0a4b1f61c64bf0770134056a575614b4216),None);
  ((0xb6b1c21eb99e386368f63826509c71ca68759b49d699a1bbc092a43d6c67a17c52fe042196bd43a547aa931205467f2c,0xd16038c6f7a4890aa5dd9d5fb060651be36b4b378c4f654ae590df494d305185cc6b37cc0e03280634cfdcba2f2d8fb0,0x82613b71b19c39fb27d72dfb3b3e36e3e963e6195737cef406456b4851b684963835ed8342c2be5bdea3689a189f6489,(-0x4d37f441d22907f1f52f2242df947909d7bcc9663663701c23dc25568804ec43672c9cde8829df74fcb33a58cc5a787d)),None);
  ((0x823fe72d94597205ab5f1c4cfabc4cf46df50057002c5ea3fd4696cf6b6fa5ab4ffd62501fd23843b27aa089eff9d68,(-0x8dbee7e61fd505d363c42f60100baf6d57f0ec2ee1e56a034ef08504e46302657a53874ffe253dce8a6e17e67e09dde0),0x4244f6bde3dd25aaca06cde909edb401a2230cabd1f54ba3476ee2c22453c9b14f479e38c743c38cc6bc259ca4b486,0x212ad174ce0cfa44bc61243517cc2dbee1f3f877095e25d2752beaf0b1ecdd7e488c1bfac965f3cd8f6a0e530338a3c),None);
  ((0x46a1be849031175b2b68f872c63ce3465cfd166ea87ee7f3b14733c40868962e9a41b3b58a0d9f1e9e540d2ba547109d,0x18a1ab2555054888cc47d08e917a10ef1268540fd833aad6180beea9ed3e37f0a17d3e50979bf81636fb73549b4c2c4b,0x137cda61af6141331eecb00c5daf7174251843e9b4455eeb3f0384d91c0ba88d582325e9e8c1b7cff9d1e5a0e1a7112e,0xd2d726f67fb9734f68c8172d5984e100e822e05adf21fabbfb51dad1c6c3bc1a6558612b52a63033915cdf0ac32abd),None);
  ((0x78e87470fb89888eb34dcaba60ebdb03dfd75f12e2afe2d1dba3ae3671dac66377b869b2728fed45e32d4ef51098779d,0xc5e8d13b2a5136e0b7fd150b9ad30556168b37fb3c852e9147ed13695464c771801f53e033afc2e1ec88445d7d3bc4be,0x391ac03d2d8f6f1efdfdb614d5a57695aa8dd0896affdb47e8d3367575b04c42d81db578804a96c50b264e6b84a03695,(-0x5ec1f6f109e54b93fa58767b83def11d2ab6313de918001a34214dde5a0a2d4f56e1e0c1344cec0c77a08b7f8cefc23d)),None);
  ((0x84c14407d1ec92dcac6d21bd4c426e0d3f9303fe95075f352bbd221e14cfefa68f6514da354f27bd909f8001e2af7064,(-0x215a695585568e0984d473ae112d726797cc4ea4d398eef6550f9a447029b5647196b555cd7eda79e040490b5bb786bcb),0x44d7e00fb65aa5ebd7a5ed6eea9e73b7a55c54a9a3c3db58cc1b9e324f0d371b775e8abc99272076d73d98c44a18c9ce,0x68d8fb47a6821d81a3b60accbebe9ce222d9c122ff7817a2edc956f66adb3d73cbe7d6f6f80e5775eab4e18bfd64c101),None);
  ((0x3969952b3435c83ca53df8ebee0edc71ed05b9fde07cbabf768868ec52c784ec19ac61e13627f88834043d1f5e42ced5,0x2b5b67f2a9055e0c99af4476a93418cf64310bc4267c75541c9d44ceb7097b693eb02683f812658432de1123dc75339,0xce02ff8f19c195a7322e70e10fc921275a887d8fce015aee45881d3fa9dfe6d655209acc4c7bfbdd3985d764c75c51f,(-0xf01752782e11bf7115dc527bf0ede37546bea37b04989622400a098e6c7f4854dbf08d18a881fde9a6bf91beaa03da2)),None);
  ((0x32a3b3a5214a2cb930c2d5842a825fb13dc930a96fda31e0a07b6e400595111f3d5a190f0b324567d9f924b4b907bcd2,(-0x3bea703ee1c7785cff78017e490a29ab2ca8defa575d42b9783e06dc63a99b4e254644b9c7d9604a26ce0ca4eab10b53),0xa045adac359b4fef35d09727a19b9a2355e581e4aeaaee52a9a3f2395fe2b976d46ee321b54da3b7531fd96e2604a1f,(-0xb240ffea618c44a68d77311f7046800488c83fb34550812998ceb3748e13bbfec645efd644d9ebc2876cd148513fae0)),None);
  ((0x564b7efa721bd74a6c2d3866d074a7ebc5869a148b395124ec7570df40054859cd305116b082beaecae4fd2273eca8fd,(-0x1276fbcb6a2285237c5b7c76fff65b6f2bdb885f551cb26ccf8829e703517981b509cc0c8b475e2356fbe57325a410f2c),0x1d16cf93ea650e4c9f745301533d124ae9ef96a3ddc0c02b8f000945de48f3b243c8225f4ca060a5fc72e80a1aae63d6,(-0x22c7e4530d07ce1e923231e7e39cc838c9fb9bab82836a7b0677a7ae861ce3a1e0c0e5120390cab3e4d12f857b77654)),None);
  ((0x77279d0040a93627edfa4de9f563db3b4e481a18de12864ae3d350bd981bfe0e544833d5f5efaf16fb59ea29135d07cd,(-0x133d359fb36b0547d0ba88171dd967a5939cf6e72b2df43032afb5b224d60f1d20dfc403d2e19b3a84df45824a4442718),0x3775da17727a53373c2b3b84c626cb4a3bb36582f76b5a9b17d61085fb7376ade759322d5f9121b6a2ec311026d44fad,(-0x1474da9cd18138c43fd527d2466ffb5c9259390728586cfa29e282fedb0e66179386482ffb8659647978373867798602)),None);
  ((0x9bc2ee4d0ba137cb8e8fbfa1c45787529085f71ccff6f808cb600f389036855477356c4e855ecce52b350d6834a59d63,(-0x11aa4fe29fc773de07cfa41d264aa14ecbcbd1522c250f77ef6c37868148b81e822a835f0964d7c5bda217b440f88d915),0x5ec5a0ff56ae32b8d26771c6182c674e0c77e29edcc91c92e34ad8ec9855cfddea8adb98dc15608402c5303820308402,0x7bd86bed1e6d394f139a9235e2f6572c73deb210485ca9c969873fc381ab1ee7690358b2a42a921106159718225a2130),None);
  ((0x7d73ec5d35ce039e84ee43756b91b82837edac121ce78c6bee31031f8b0e2e6e0c126b6276b929aa2aee2441ec44adf8,0x430774af2aa1f115cc9d90fd4fe54a7e82798063ca584a287dcb3560cd0cc460a17e51b0cfb5a88065768d89adbbf018,0x3d7a69513c8583c407e5f57e9e3e2510ae645b76f18c25582e7db6caba87df311ef4845dd62ba81c3246bcff5d50681e,(-0x5a76981437412fa20a86efbf6b8cca7ac3f3ccefdb41f6099c465074c88f49f177a70751a2fc4cfe94f13d92f07be098)),None);
  ((0xfb3e1ea9df14f8595eabb492ff6282a6ee5384d0fbdab68c94bf6858229e3547911052b15ea263d4a0b4e61cd8474718,(-0x13afed19e58bb414f29ca3ad2deaea7f66a42c0c0244fd643187d3d49ff0bd5962961f39d938e022d8a5fddb93f4b5cc3),0xf692df33f9676e28c138f1d666d8f3e6db0b46f6bcb8cc38350fe623fc14b776c4743fa9457c6aa97c0dbceb13c48286,(-0xd4a7d54cc5b4823fe1505b6e88269611a8952aff2dfadc0590488e40e11ea2ce4f9453dbce2157a694a47fc12960755)),None);
  ((0xc22ab1e3f097fa09fe3ca0a14d8b31b05ab9cb956f8c0f8032566b4846d2beed09d43de981323ce8da1945a263458e72,(-0xff4ae0eee707ede15d8a7c4384af8451df166f9a23d7b757c5fe86d43532d676bc092caea390dea090dbc60ae15623c3),0x9344bcbc530e467be7ffddad8ccb71ebcd1885017a607ba05dafd474fbb61b53ebd5ef574217ef982d21c334ecac4d89,0x79c5b4c61c03971df05f5671bd50e00165da1e08fb6a7038316200bce5c828e0707d3d1bbe8ea8f6d2d9759a3c1380a9),None);
  ((0x1286331a702d28c5a5cf3ac48d15eee67dfea9878fc262b96592fd8112aadcca6f950a89c2ff1309f3c483aab061a297,(-0x5f909427e48b00f3d99ca68dc1907f3e3832f61b3947fb0d728e2f241f679961787ecd96f68d6e9c236a5b113536d20),0x157258941a7546f72cd4d0fb62d0361ebe7864eb851347188504b63dd8d5acff55cfd327d716589fd943c00b64903d5,(-0x187eefcb77556f0208d95d0135cb6d6fc91c4d84e17abe91a48c9456c1fd2900e24693c0a0a09594df99259b9a1b751)),None);
  ((0x7f09238cc02b772751f33dc08a16d94761ca6693ea423650a4127cb8ce244ee5785ac70a1d49c58e0e9682874f1742b3,0x596af481a5c98f6b1e5c48f09cfc13ecb24b86e44a4c99ebbc81abd69370f664bce2380fbba9d0a1fd58c61ee7f64a51,0x3f0a11992b806d36067367e5bf128a1b26052ba7c9afc2666d8c6dcf495dee61dc628fea6c20b4905601089771e81080,(-0x1e958a3790f0853b19cad91b3ef416a3ffe5169c24281ec6f4adee461e7458aa7be5fc7c834bf459c8432837fc653916)),None);
  ((0x93898ada5d094e6d136c46f03ddf7fb90b4cdfecde3240f9c6979fbccde3a4b16b424fec1502cc3d6f54cc118cb57cc2,(-0x7959e5a9f2802054d901b27facb8203b6f66685713fce75c8150e527e1dcfc16b881735f961acda3ce61b84b30f452e4),0x55073f5cafe06a97d344116380e3693a9e2233e7b9f818c4d8bbb252a826da0ef904d611c9751c8ef4093063ff1dd16f,(-0x1879015bd474f30e77826488184103218f4b55cbf25106ce44ce24327966e93d9dd74a7fb7fd43193533388d73420c1c)),None);
  ((0x70fcc733c80f8814d54275e68dcd029c9d5e7dba0b39c3c625d37bde899f5eae0f4dea836f65e635cc90bbca9829ca1c,(-0xbc07d2dcc4299e4e4b0df8f05079805117d51ab9c042fbbb87955a61f7a1fe4eb045b06bc5bbde811128a3e547c9bec8),0x31de27e6180101279bb6e36dedc0f28217ab05579367b11bf6362c6b64448ceff074d938c12a6306bb4991e8b83e3274,0x1a50415bcb7661a837050b58ca7b5f8699d9f031add664303d294fa90fb08d87147afd01a3274f573070e69b3b48f483),None);
  ((0x2bf470fe539b986286e70796f63420ed6a8546f229f630d46958f62a66e1b0dbd03a5b05f90762e6daaf6fb36a2ef37e,(-0x75b7dbb798a3d917bbe993bcf7375eafdc83df76ae2bfd8c2afe94b5506c7fe0ec797c9895b76bd9fc89654db0de3f47),0x78c075d06c52b9dbe89a1e2cd104e39b00c99158c426ba825f35bb913bfdfad9c446ffdeb997e31ee8c7b91a7d82e71,(-0x7452f3c256cf6a3fcdb95872f9410677590f115c25b9989ae27a23f43d8ddf358c81a9f6a1125a0b0cf1e2f6f12ad58)),None);
  ((0xc5fb018e3e77d62a1df903924dff975c1eaefea9b5097dc8e49575268dfc9d2bec7938b909a412303214a2307124d0f1,(-0x6aabfadd0466ca8f18bd5a256340d4b9dcc463bc1d7dd09bdd1489694e0abaddf2a1cda6d151612e3749fbe3670f594),0x991c4680f9155a2114943496940e5957779495e7514ad064b6e7764895f080db376a5251c19f2c60b039add65d3e99c3,(-0x2897a8a122de7dfd6a265b927a2f773e2d5470d630dc2ef153c55079a38c84794d128884f18ff318d31a47e3f8b678b6)),None);
  ((0xd4e03995383704e9f3a2f12200521bb21e451e51f98c6d676cf9b58d5e70d5e993591a41c82b76140f1dfbd01ec98e6a,(-0x11868ced1dde4cf24fa73e49991b737140a7d07ce9c71de4877a5be8594ef00263f393a932add9753d4c6d5faf56b3c63),0xb10423c3f7314a6f11844153ee4c82356483cec8719ba341cfb07782be8c2c6bb862cec6de6f343a8a212c9a95e4b250,(-0xa804ac278e870b9cacd63d89f3356fa6c9b89cc78f3999c3a9cb8b107cdb3299a13335456551490cae2497260bf1dab)),None);
  ((0x81885e2991cc658d333d042525be90a92cfa2cf6b447ba3ffe3769d6d819a4d3c34c86d7757f631b6754419263ea8632,(-0x2288c06fbc09e1313cc80aaa705823f36d163153531c3a5c36c0895b1c4b640045d83798336c6c938cd0d96c30675f2ab),0x418ab78a13bd755654bf5619057644228d0dc4d4746a6fdb1e223b2a1c77c24333d67e93f56fb569ca9f640a3c7b4e99,0x1f9ddc32140ca6c2e124bd3096e897bc090756d3a53b6eeaa99c33b485923fa6d0b833f8e3b47d5b04c845f31603d53d),None);
  ((0xfe11866a1028b1e429f80e088504713213559664998658234cf4e653e8f1fb1a2609ca00758ae661f8918b7734b6dd84,0x3ce5a4ae5ffac590c3b03c7c0fc01e7fe3d50cfe31c970c3a6ba58ab038b05f5a28d25cde93ad0ea85ccf34f21d2150,0xfc26c7ed98ba1b4460891861cd5c722e749edd03d8b887f252f4f2ce58bfd7cd5bd89a963def402a459e9d6fe1028b4e,0x9d08b4b431a67b15d0015049c11c223de12faac433878e2bee26df6558da3f56f9e9b2077ee1bb00448e00c6571be314),None);
  ((0x72a8cd9db7be05b3a87b87587e5a7407f196b87959ba6f6912617cc6548101f222aaccecfc23c2ff898bb74477246dcf,0x90b6b47c0682b4cc20893e5e3334950cb9493d64261ea8aeea11dc082e7afc9f188e1b202ce2f7b2ac46e1dbf171264b,0x335ac66efbcc5fecb5f11a1244a5587e814a54df3825af8bf16b9e04a4d8389b15a1846a094130766475e3c70a156395,(-0x62a44752d3175eb0e48d4918f43c643aa695470d714c755536d417b8867ce34d5ee55a6ca3d09537b7830255d976e829)),None);
  ((0x199d0012d6d0f6329f2d4ff94a95a469dc066425e46b80055d9aabce5e26cb5a8ecbd803229f59626014fbf3ca5ce33,(-0x24ed2becc8ae7a654b325dbae8cdc3bfccd6363ecaaf044ef1f04c1f07b72e999bc1c624545b94a163f7faf8ba8456e83),0x2900a4cc5104dc6c6d2bc7ecbddb3fb38074a6af1930fda593f317145d5e76ba9784d051f50e0456f5dfc872021a4,(-0x1934d04b2a30ad55fea2a8478e4636238067cf61c1ff8a81e92e26733acb6fc58ce4d7e8be516b75baafd5a416965a)),None);
  ((0xfd187d899381012092a845d5d0219a414c796e0e61881e40e8463a48626a836205d54cd0a3c2799dd8638dbf3f474e50,(-0x13d536dde628bb19f80772993e990244663096f4b1638cee5407a4d9710a7501b4eed50d2b9be524153e4a6f3346b8340),0xfa396a79b4e84865c82685f88d09505fcf25113bdb3d3a79d771c2d27a2eb17a607d3fba3472b857149a0987051bb7b3,0x514147ccd69f657401ecf10976c7dbf0777c47b5b10c6d865ae077c6cf83540fba81215653c9ccf044de4910b574ee23),None);
  ((0xbda9b6bbf537ba5570162baee05fa7a02e8a3abea15a343f1fc3bedaf61d6e64f9d5b5f3bc2a9686ec04159edb30a503,0x4423b17c17f6d980ce84ffd3e5a538275db487fd33c38f86c73eab211af90c8261bb05d4d4d4b998547bc37f2385aa50,0x8c8408544eadd761938e24c04b92d0d8fa2e3bb2c0423bf2f17939164944b01911bdfef49adc2eb9f5046e09ed278776,0x20a5543c9c6226f1b9d779d2c5f8063e9f23d060e55ac61b8df3efe4c2c9a44de378bccd3281c56886dfaa8c99b8cd61),None);
  ((0xadb213ccfbfaccf2bbe95334c0928743ec8018f36247fea220cc5e635daff1acc35ed5572a94a3da012b0b7c1a5890ea,0x76b88f88291486be79a6a9b766862fb5b1d530dcfb6535dd92d8f4cc00b4c881d0b3ea064f4006d9acf3eb974b71acb4,0x75da2aa29727734eddaf19460a7e95c2320937843696d34b199cad188df88947a954c830dc4ca4d0af16bc96d200da80,0x3bd1eaad6acf18d13c7dd56c24ac10871db5e61c0e77b8450323babd23ed8f5775b36e80c11ea638613fbad6a6a6d2dd),None);
  ((0xa99821acc3a9cadc2a930c6569aa74096ac28dc917a0ee4aa6cea65a6d80aa576142c3bb53666043e6d88dbef35481f1,0xac814eeea2b6c4e84f83e7c0000f6dbba0d901c65996ecc28902a7809d8b44291981c9e9b6ad427d189df0560e1267bd,0x705a36de1bec8680ddaa2b789d07c0b4495b1dd42ae17f7bbb0df0d8a00dc8f4c634332c2914731eff0f3d8b2a7b9e8d,(-0x4f07dbb9e065032b027605cbb60d565bcb8c3da26dc7657f9568a8f8963f8612be40a4729d19cb509eab28abe0ff1d00)),None);
  ((0x1fd515ecd4e0b58593474048a2a72b3b877106b16407b8eccf35f06f371d3068c23bfc132dededb8d7acfc232442263,(-0xf604700acd823d44af3ec06f385c8ba9a41c28664f43d295255514408698849cc66384e11a8849230350e90be29b05f3),0x3f54cacd9895fea770de07732937e5f975828f62577b1aead6655a18706ebce79340a9e0103edc69cd4197d674634,(-0xbca3325033538a41501a9af970cbe919b259c33a6a51af5a5df5299c707f6f6185521f6e691f5dc68209d57c6dbeeb)),None);
  ((0x817257ce7950e72934b003e47ceed522a6905a43e0fda8af125c518dd6c44493c6c2ff8823787a7303229b93894288ab,(-0x282d5526406e3732bd3e987433cf54a68c1427b7b4ff9555e1384c078a69eb6e449bc6ec021bef39304a75e73853a3504),0x41746f9068459201dc9bece6699e3d8e231dd284281cc12b22420c7ef870795f1758807edd1b3a67ece1f360e9f27cac,0x64495e73e35f88a0b1369c03fa845dead4e4bfc503a44999ca1c6a28bdeb9ea72dcbc9bc57c04d9e79e9f64822ee3f12),None);
  ((0xd8e7e031a61f33d313ec2bfe07af68049621755ded72e6462bdaa240712573bf1497dc318e697aac878c70bf4f6b1264,0x1577ac25d0a734fd09430200d52f9f0170e58073629bd5c4791d7d04722c82ce523ebc979c858619a7c94f3d92cdd3288,0xb7c81c5a2645601b56fc33225442270168af3a86e1e04aa1a6333c660ce21c83c4c3504af56524436c618d09ecbd2add,0x20d8000f6a3632ee786d6732340489cf100e86facd6aa3965baf9dd663a6ff3e3eb8991fb856e7a95a9d39c921e82608),None);
  ((0xac95e1c16cef7b909263d68094f942a10cd9c25bb1bfb6ffb1d20f79dd17380fde966fd450ba10968d736cec24321505,0xadf52140df55ebf333588e63aaf9fb82dca3a9f76e8d03f058344b5cf7eb6f07c43d69315b33e138fa173360f54939fc,0x7459bf1c7ca0307281a7f20ea28da126b5a2831f4cacf854e0d66e277dbcfcb7dbac4dfd4dfe8f1f4dcc25656f059b43,(-0x6793ecf0c781296459643586e78ad1b530d1d053d44f7f02cb7bb31ef7b336d444a8851be5b474e7e32f971b40bcf80c)),None);
  ((0x9ee358ffc8e1b90e736eba3b9f7c6ad21833f12ffc49a78069d6130fd6793d60156341c270f85bfba5dc29814c91563c,(-0x10248d107ad97d8d69e2d5fef60dac18df77e589ea9f8b99193314f183059b4ad23802f5dab5d774c5c9e2014b9d423bf),0x629d6bc2b085ba6904a776935ac43a356d183ede56f06313b74fff562823d5c450f7d2b966655e45bc172023d2e15525,0xf9f7ab03807bf763c617c470ad8e1607933c7d4883749393268bd851ea845c2860923dba61f8460e9ede37cb7eabb4c),None);
  ((0x97b26d8f84411a1173e395e95826eaf08ff793ba68899883026eb502afbc7652036e3ac4baa7f9535c0ea0b0b480c526,0x56f6b0c1ce406a3769496e6ffbe1558963e36f0d1fcee2eb0d0936a5d2d86b7dac651bcb151dea817de1636e80b12524,0x59e3f99bd87c3e5d4c3cd2f5436dc7edb6740fdcd942b732eca69dc5f64e03737652cf9c4195ddab6aea3143ff30187d,0x10a64a7dfe0bd8fd24241cecf7535e73f12673df649aac6a6b6525e1d2eeca57bee4a59ec718c6c05be1ca1ecda13b1b),None);
  ((0x8c74c00dd4b85580fa6b545010f81e920adef3fab51ae726b6c58247092f38a8d63702eb6325cb893aee933934029928,0xce283a887b91ef1ea2286d782aae534776d2eee741377dcad52c69ab40a3dfcb51d79253bf21b771305c9a46b3c4b00,0x4d0fe74dbd4724665a844e8f0d361115ccc6805a621a4577af5803ac2d62e95d53adfa08c0e10ac75706c7bf981310c6,(-0xbb58e4cba06f4d5d42bc49947ce2be503e43d90b6dc259e64e1e9adc13e2b2426e5365388fd25ad7dde680ca83ede68)),None);
  ((0x30dd71a5cc3aef8e9691c150e4ffed38d4a553406a02d22c9390d8a23bcf39aacd6805c901e6ff6dc8990275b33e69c1,(-0x58fb5e086731b0df919a7887359da5a65b7604a7486fcb83674ed528e29571ddac91f157ccd810986bf29fe2745d32c7),0x953ca2b974c814403094a3d8cd809fa1407648b4b11ccc2dc89fe19c55080cfd5aace5634b01bf9a30881728ed5632c,(-0x69eff86e50ff11b3feb69bf69e6cbfdd91f70111abf4323512d5508dcd6dcbba6fee953a967ab044d0ce12c202dce34)),None);
  ((0x155f72da42864311326dbb48b6aba87f9be45af3c5a6f321dd04b2e12eed51c0912b09d7a6385a3d8a727e8884edf921,(-0x12a53ade649d853312ed3c050a7a46ab8a65a56e3c06758e52290a00e7a7c54b453eeb61f1461e7d23ada933047dd9712),0x1c8cc6e406e83fb8ab8795db132d892b78f84a21c882307d7f36b87e6284dd3fb91affcd68f00824f4a534fd4b2adca,(-0x2028c247d5e8c115f601506f9b21f86dd14b9901a313d072a92edc6d89ede484d9d6bcda482d143435bc9edac2756a9)),None);
  ((0xae727047df7b24e06d8c1d404fbc61348f2862b17d619944758e190c4b0231b0406530753f3691ba6fe4e910d96d829e,(-0xb610926eaab703573361a4de301814ca65ee9006818f5b68de3d7c56c749e3f230be0cbc796c073193aa25986d4ef568),0x76dfc3c9e50d67876676a2604aceda8487fb037c2fc677762ce337a9260e4ced521e807c3ab620454a6b1d880501ecc8,(-0x1628a1b8edf1caa1e01bc5336aa735bb3597502df8f8f0c48efc3f88bc0fe8f44ff9e34abb1dcd290ea59886858b9c74)),None);
  ((0x9aa07a17e83c5d9f4fcffcf0206aa03a83cea9293288b66f9cea60e8a605f8c5c8ec8e22bee9331b4123da414f9edd99,(-0x14b377ee1f916eac16ddcb7f542e17ddac5862af337a28b83e8709c6f1bdaa022163758cc12298158b287512b92f892f7),0x5d65777d9b85b7adc9ec22ec6d30a72d49ef1b4fce1b144382bc001d402c58f7a6a20e38417a01ef311fe92ab199ff79,0x535f8a2fab5f0085d64deac5f6b3308a1a99e93f91c99197dc6dbc29678ffe7120f3853f7f4e5a48dda83e687d8d7181),None);
  ((0xbbd75caac0c27056182d9062770d2aeb35ac222b0d5c6ba34b71dc4955f20251ecf29943b301fa23d3f15f95c2dca459,0x3106fabb58871bfbd41f771568af615a272975a3d32ce762f32a34965de1bcf713169bcb7571e539bb41ad48a3307def,0x89d4568e3df70326cc0e7d60d3a82ce7f2df9ddb34c738e3f1f0c24a0015a96ca0b305d2802a8bd0f9461c24de33b34a,(-0x14b8debd174e0deb643b47de6aa255c9727238a2ba25f6e00945e3ba747c095f1b169b66387cce4f66b76f9efb509c27)),None);
  ((0xfc4bc79a7b05bc2f249efe870194323e6b8ef28e09d86a8ecc3687fc7ea4c6fe0ab3c8d51c02b55bd2f0accda73ef48f,0x115fb5359a5c25121abd4b92a2fc6767663afc069472b6e8db23aea10480bceddaed08613d9477eb89b46f8456f308686,0xf8a54766b258e8543c4eb0e05e944be64afd43e6bbd9fdbd9ad1928d2f24a1087c63f47c81f401ef39f7a92c95932c95,(-0x891a875e1e2327efdf19a43da963fcffe38d09d8053d384af139b9c59f5742bacb0107c207b8d95f8500c4e0295c581e)),None);
  ((0x1c2e947795ef81b135d9fa8cb702cd139d9d190ac61a1565429e331706369713075cfc625a1f404a28c829c4ea219e95,(-0x29594ccab8c7b2e11a74cfb9e9f0e589355c0e54c50c7897b3ac21439ecf53b4045f514b7a6de66f3e688566a1769fef3),0x31a38f3d9e0c3ab09e72f34a03a61e6304994bc2869b607b019229252fd093f1ae1b4e1802f47bdc44a3afdc0870c39,0x58c5c892b6d383a057084840ed6777f908509171eb52c2d4115b9c0c099bd9d71c86f4802ff9fc5a0225b8f111dd673),None);
  ((0x8332e19d68d534345c042a92492d4e5c34114a79a3c91897a07441913f3fc169ce7b91362ee0aa9032be64369128d6ac,(-0xeb1a3f6f128e2196993d513d29bf18d5deccdefc800ad651b79a5f21195b931a813c385fdea8247de9e185d7567e770f),0x433d1d04019d39c680d43324fc84219145908679c97c1e0f3eb68625d377bfa3651d7a51b7f0861774824f33f39d82ab,0x3b5f338cfd27b830d1587d41c52c6cb9a3089d606e35fa268471a0a604f1dc5c1ce2e4eff7852f036a30e59239603883),None);
  ((0x247253fa2e5998afa7c21b73c0d3fcee5f5d8534fcc8fe2cb51f4ae04b2de6974485ca988cfe52cfcd0b9759b1b75bdb,(-0x260f64b81e010c73b5ad3c2aa7d81162738237a533cfcde1f6839039df99c395cf563e39ffd61c59604b9ee6ff93c4e4),0x5305aad4366a94a0c0470af2bbb7fa05cdde2b1fb7b703ffaa1522bcd813049b37ad2b3ce0cd4dcbdbef73869115966,(-0xce30e2cadc3dfe124018ff931b1695c1440fdf9a4d137f662a1ad6797c84114d86e387be579991cfa47fa4d1c5e71a5)),None);
  ((0xfd8590f06cb6af4672da9cc1b2d4b2dee362a229f975dbc71fe4f307545df7f6c0933e9f3130235ff8b5ddf51b12a93b,0x11edc63e7f4f15e8e89bb58bfe30dd58654e469c78680abe891395650c1adf7f0564555a3152f67c0eea3df6dc8c1056,0xfb11462b22c1685ce819fc8c2811367138c712cfa0db2c1ef9beeb99c666426f2a662a0df935aaf3806536f8376faf9f,(-0xa27f2bb39fc18244b5af8afe5161e851c3693312b50a3913a841dc6a00df048650f348a186137d7bdefa15401b30c2a)),None);
  ((0xaa97f480815b91bbc1af02a83a2632cdae71ec4a78f037a34765de395c9453f68e340f92cca1c61ff5fcaba073d30030,(-0x3525c2ff8c184b85e4a254c6465a62f51882ca3767576e949be0ad4540b70ce355270772b31582e7aec0630c71a27257),0x71ae2aed04eb6eab7377fa940366f9d248cb9e152fec2bccd9078cc93db0b25fc602181d086e894000c2934f27a3e1a3,0x19bcb9e3c6ba1405fdb1d0ea1dac2a8289d0d3bd31724ebfc75c3cc39d5992f7a26a1a6f4fd10d7def30c63df146f3aa),None);
  ((0xe51733e4139dcee5c29a0086246d81c8af22b299a28ffa179a75d7db0bb07bfff8db3fcf2fb4fda3c2e6c705da9b475b,(-0x62b9d9f0cfa6c128c3f50e380e062ffc8757003946dd2f79f371aae2a244b01abbabf7b2084bbb8edb51facbc8046d2c),0xcd0284f0689885860e795f659bb6f7b1026436a510f15871997b2904dba3827eac6d20891731ff4ac0bb657dd4ad0a2b,0x22a363bae3d3d8ff110af23db59d201c0fd769f770186778acfca40933678ff5a0d5687c85df63cffe5fc338bebd5c5),None);
  ((0x8abd9c55f0a2e072474fc265b5794905b089adbea1f06e7dff9a83e3676f95afdf84e9496a32f0d6e54fafef937d1efe,(-0x1707bf158e3621f2faf5b0082b39658888550914a8c9948516ecec54cbe230da42ce3b615b57405cf835df882028bd7f),0x4b30f8fcddcdc49acd85689e5cd7c1c6305a14ce085232efcbf9584c222707c5eeb16500d09bef866ac91608236fcf80,0x1f87226444514c67bad17977c68a242e0f7118151310ad72600f6dfd2362b14aff094aadaadd3323a46071ad5bdefba1),None);
  ((0x5b650a253c34531f0badf7b9f7047e9a52929247f5641b22c7309cb902456cef8f65e9b1904b9c4a36bc01cad7783d81,(-0x2331804051628717a64b068f297d1d89c70463562c35bfdd05283565e47ba87d23d57b815e1165b7f45e5f077afdcb21),0x20a0fd177a95a2803493eaef1311aebdd04d769b25e84fff158ba4c44e77f9034bb9ceb6340711724d4002be5152ce71,0xe4291e77f71fc537ed54686cd2bff68ba02776f75662f6c1d9e9d10654587535ac93462538d033db18196a7f7c85489),None);
  ((0x8f245030cf3ca49681999b546e51838929337fa2e16b7900ad68af97dfc38c149ce38ce61fce2cad2c9f4145df7870e8,(-0xec2cb4e1c76e777d7d5d062cd7e4854716dd7e6144de888e081802120ae09be4f3935d9d5991b9224c8d248cedd65f7),0x500996bd2e5e93c2b47cf8b593a17438d6001430d20ef8e2be6af917af742a841881b19d3d830e07ac669a356f2f3638,(-0x25c33946af269f9baf8bb476fd691ced1bad2ad0310b0d2ea37035dde5697ee89108552eb8d8c1cd2febc51cfeff2ac)),None);
  ((0x85572b59dc76f747023e75d646f222cc14440e6f3cee972f1cbc46de410a679905189534cbdf2e934201582eb5450e6c,0x1a05436c1100442ef57d673f2ddb44d9a0a1be97fed476d66909cbb5c063b17d859f56d4a772c280d82cdd2f12fd0acd,0x4573b0b9dd7ec566da3ee750388b41b21158b3d46ca734f55ae5ee0f1db9404b6a8bc9eff23e2bbc80482f2ee4e89d9d,(-0x5575fb756a576ab63409488f1262b8410f190618a437a1a9424275d7e0b2193cecf3ab251ea1ae7249f6ee45f7cb15da)),None);
  ((0x242b67c29ed311b90721ec1ce2f84b27c49fde07f9214de30edf6cbbee4ab336b37e7984467a815bfebfccfe166255fc,(-0x1f9e206170505efcd55cdc5cfbc695bbf026e8920939bf906a99730be516fdd1af0f35e27b2337c3fd6ba2fb664ce9508),0x51c3c8ac21ae7a6f0dce7e029fce904ebd38603c872b8b373f0df7e3bb4fdd31a139b146334578efcc28e7e0207f7e4,0x9064f28dd40791548f3a9c1ad53a6f7f1f6b733de4fa55542befcb668988fd6418cae5aef23b9a06b47d1fc1de6dbee),None);
  ((0x6e0a00149b0074357068d311855e3b6c719a9022e57bc3daeb3c2b21150bf8ac5a54404112def0b52bb7fa5b1b9aa7f1,(-0xa1723d46346e025b563982502d152551bcb45aae28978de033de472824d683d4d0b7a29e13dcf7170a83ac65ea75148f),0x2f4c9875b6d0818f96b292a6073bc9c8a05e4292717b8f7026931d5cba6ba24b98148cbe28494ac6d96aa45115336e91,(-0x1bdfa337aab21b3881f3bb2951f0d8f3c09abcbd701ccebce28093f9cfc9f1744de2cc9f787c3a358141c72c4d8b21cd)),None);
  ((0x4caca3acb5dea57c04bda5de2710e3ef8dcdb3f169972193dd57a20823e3bd972d48976db55d21dda0b896f05fbe3749,(-0x192770689cec2b552eef90e38de02dd49102316365babfffb996856de3659837e7a74a0fdae311464c700e77fd7f0c1ed),0x16f6f59ae4b5f98e6c95dda7768bcdf567373296998b9b28da6d524aa40f841ddbd5f1fc3b80db87d5b78bf1bd496920,0x3be4dbb872cf22f7caf78327f1c2c6bc996687b3c912593d68e4a705ae259e71512009a2abd042ac823844c9dfd87a14),None);
  ((0xef34fb3193b9295a845625bdebd551f14184eb17e0d4de228090a6fc6f205744ae076ac61db200e1087384bc831664ca,0x614e38c7ab76fd41b9800de37e6a1d9b3e54d1d7cc09fa16910d6aa3be41bb5157241b970f9f16b2931b034e47b28e40,0xdf83f7fd9471ffb6c9161d0a49f94f11eb196b34b3eebee196368a8f214fdee26e219b28ff7d1a9f4f8ef7bbbf746ae0,(-0x660331fe8a57e88a3ab14e87a212db3ffa45698c210e6a7e2afdcc4566acda13b177ded6b6eef65b0d42dd6faa31eaad)),None);
  ((0x580462c1242e9f0a359503d468d5232c77cfa2e5b45d9e948280ef4a5592f7f0d7e6de0369aeff627165564311e648b,(-0x9f4d1b7d7b594c4d0bad0b08026b05fb970d8cf6a20447bb5d652d421d2a85fc8181375f194590a00ebf98f3e841fe01),0x1e4303f80501a0374254e2ed71df0ef95f7e62e423b7e07f44eb5a42ef1ca1ad2836fbe2d98083801542edcdfa22eb,0x20046d69fcaa9aa6ce8da88fe1f731def837c7ec4f8a66d94efa7d6902c925cf89cb49b17584904a835ab33f4784494),None);
  ((0xf9fe16bbe109bacdf16c7c28402f59ffdc762c5fe70cc17c0666f19a122b35c1e3d93d1e3023d77d1e9b0484d1b720f7,0x1815f7bf5aafaeef058627038cd48cd350634d7670887118d5202621972f487cb821cde5681e99caeaad94cfe9317e5f3,0xf420446a9a9c5143867485e6b3bb5d3de6bb578379341be120224173de3cbdd91e32622bebf707ead4834d736fe19353,(-0x645af1772abdc1b4eb4b81f1163aa6c0c6edcc580140a903cc1b1eb8b18d1bbdeca7e4848c98315e812aac5cb61dbd4a)),None);
  ((0xa0b60b0474f521b212e1daa4144f4788e9aaa2f4ad982f3bda02aa007aefe03f9ae10eb8b03448f75ea9bb7052f3b655,0x558d3529c0234b2d7366acaadbdbcb1251ca608269e1f6b76c36777e3263c9ac84407787b0ad7765366c296dccd43e87,0x64e40f393d0218cb6eca96e2deed2031fbaf26aa54c08e171bedddfa20a8f97a81f730299f38048d8b22bdb2f718ebf2,0x5726bada03065570b9ac14e5230b21928d6de1b284268cd8ff86ebbf2224739b7702b7fe18f9cf13c3c3a0de2c37457),None);
  ((0x9ed15dd824f1e614e5491db7f2cbc2cf679fae97ec4c47953f630d176c7a0cd08a78f03581bd00179a627e19a9367409,0x63aaf7a662154e0425e284ea715b001b40df48e4f3ef0d064d3f3bdeccc5ef253ac70ff903c150a9d784e816bfe59c7e,0x62871b112aedac5197d9013483a593b790c34107be54553f353dc7d05285f7936b214f6edf9962ecb4c79e3376f0954c,0x3eacabb64e81ca47ab1ad5e16c6e85fbfe3d8df8b8c6995e90b50c7e7004700e92c98b398cbbe875d0ff8f875cc60968),None);
  ((0x5ed76f9b570f6f3bd8e6a85a1be282ccb01a843e32d400c6f869f919b4bbf3ac9bb38c31bfac02269ea95d8d21ad55e9,0x6a5724eda761291ec15a5c7f9d110bfc6bea1926747ae1652eb9c073d574b31017c7ec8094217dd40135b3f2d38da9e2,0x2322eb42bb83a55eb691ce2a87e8555ce8742d50c7ca542c1db8e14a31ee574cf018dc9a5bd1256f19e94f020b1dae0a,(-0xc5173e8e6760484b9eeb89842b5e0aaf6c9f4e003e58658ffec9a4958e0805bf26a1e08dd6a538cd6a16745bc83030f)),None);
  ((0x69a60b89fbfdc9e5fdcc611723d177b7fe89c6786036c86e2793b7afc9c41022843647b7296e082946739a8e9f75758a,0x980b69e209c78f5fe6250ca354ab5ff6dd89df7041d1ee11d9ae4fb0e181f907bb330f96ab9397e389a4fd7c35520b08,0x2b99a12a282e22c7fd7e4e2dc9fd933acb9a43cb799c88aab9a8134332a80683b0d5c34436d67e93f4699360ec0673cb,(-0x3e5082f5e475f52d738b9bd7a980cd4ecbd9325b8d2fb84328e57cf1c0a4075f1a2fa991b650f6c96315f74a4bc63ef3)),None);
  ((0xb49ad74387c1756659db6c8bedf30c900cd2fd36674c12e1bba139d87c0d43be2ac55ebed01205689628eecc21d5fec5,(-0x1405edfbe8dd84e1a6a2c365bdf79e85906e0c067a58f35840ae70b55d0960312fab716b68033e30d7ae8e1c81ccbdba2),0x7f6a1c5ea929e1b077f3a72925158d66073a7f25193f33993e9ec1580619799257327d3702c57b779ed62bc4bb29eb8d,0x27d877fbd72a3ce5a894c902912fbb9a64a680690efbdb5dec798ec3834462575ddf0095b43313504c9e3a8a7aa14d4f),None);
  ((0x701088049abe0f505cc53074e5a626d50c52b124aa70b7a38d7fc2feb6540469da1556919f702aa1bbe5f469eabd196e,(-0x6d0eeff61a5d23aabd93c054dc4c1b711cc473bff612c4a8ba4cea6315ba84fd3c25a4443a3051b3186b37e13ed6a9c7),0x310e7815503e89a75ef737a82d054580c638912112205a9bbab8c6c9381234d5f04807d3838dff5301bc4b081d5f7c36,(-0xe44cd0608c4569dd1203beb55ec42f281d625dc77ecabe4f8db18638e6187321f569e992d87681bb9f4d32de666f17d)),None);
  ((0x9f6ea64984c98f170077408bd9216a1daa63f43749a73bfc1c6cf20119a798200df0285e2c8eaee703d819de4ebf1d08,(-0xe86ee8b58a88e7715879faa8e14276ac2a0bc5178bcf0ba4ddb2e770bc827f95b01ab816d0698425c362cf349f1c2237),0x634aa262a623ea47efbe72a3d632b24b18e30e4fffdef3cd45cad62bf79e6145c68b3d2a80720a54605787ed0ab30c84,0xb718748cbcff8aa751c545453b7abbb8cae651e30ee8d72ed7a627b7e7ea24178eff06b36041b564ec35db3e3865653),None);
  ((0x69b5816f59af5392232b09d0e6cd18312bad3ddf4309fa64a59973c5b4e30e107bef7c8bea37fcc97ff5b0fa2b4c459b,(-0x7d01b01bffed398cabdde00078fe07f33ce7c38bd83deb7e00a064f6dedb441f1cd6def5f26014feb78509ebe3c0c20d),0x2ba664dda0780d4ba52e29441779bf8419f803780a2b432caa4489e07ee9a66f30306641b23df5029a5ced2bdab88e83,0x12f2e8c4c05062fe3ab3d8f0aac5e4c9aa89eb4deff47bb430a9269a63e3042ac7d34bde48a832dfed8fe5c5a7061eac),None);
  ((0xc987b43da5afb26922682e9735b1ec517cb0d7d620006a04390e636f8adb460dd6aaf6a17903dc008c54536697d8957,(-0x8c5b73366341f292e25d7b9e1b87fe37c96b74d6bfe62a97de84734c4627723ec0b42f0df6840d4a144b20b4a08c6a51),0x9ea660f86619654eb6c4b6186b6493d5bbaf84fda635902793f5d869f09816b3ca09a38d0d209bcde32318bf731cd1,(-0x53db251e247cce115f914b7140fe59228d502b32b83238063e6aee5d30f29df213e92ee895d3444130f78f6102ede13)),None);
  ((0xac63c1fd7b4f2643d77dd3f701abbd07853d97c56d149b1522bc862d28653967a71be5e6ef1821983b3728fd37690c67,(-0x13bdc150efb21f5703ea55c213979e9cb66db86dfbfbb6a240e96eb28cdbb83a7fb8dc79830035628e5a0d5a5e5e91fd3),0x7416338c3abfe98d0f92d467584396e09991b8a83c1386aefdb74da53920a6162c73f8d0a60f242073615416d3202830,0x5992c2a6dc1b5fc5add1651ee61d4c701793f46a588e769f65988d582b8a6b8d7fd237f3d1d238ef4f4706cdf55e00fc),None);
  ((0x8ed11c4e9497191d4d26687b7eaeea9d782794a17404a8200ac47ad4d4771caf4d06b75148b9b19e0b815431ebc1fca7,0x794468bc8903564e9fcdb868e4ca654fdca47121e6b9f284c11f15db31aaac3e8c7208332d8e7ce16a9dee29c36aca92,0x4faca63668478733733f599388adbd635ad920b6dc9f51243ae9fea86fd47e3756dd54cbed131b80b880ca5ef358f67a,(-0x3d30cfbfb4ff8e5aad2a79ee01525b71942ca08273aad3ab77acebd864059c1929b80ba7118bd73ae4416640fea97499)),None);
  ((0x37763d56fe83f4fc4110c77297e0e62fd9887dac1734eab067a2749fa3cfb89d57cd25f811304ad3b36ff8b1da9e89ca,(-0x167198a1452b489ddf03dcda81cdc638a5d98c11796529e3c5969ec8a58b86b0fd9f77fa9c5e7d92fe7eee289abc96458),0xc0404f7fc41e7c51cf41fd206f2fb27a6d10018fd4100adddba4d83159a6ac266ebb5647788a698217511fd8f58b527,0x14fe2c8d36071016254f411d4540e2bda90d0a34ee2e4f9aef87781c0ebf65691ecb69d69775115d6b492ca6a1132af3),None);
  ((0xce9aaa1a1ab959cf6e9910277339e2efa14a255d2aa6b9c0064ed28bf0f20ae32d444450942218edad96cc6f555ff8bc,0x1018e1b48fdae533c3c3566cb99412ff1716e7875a9523f2a0dc3325ab5cfed51615dc3ecdcb2ccf21a3ecc87fa3cdd18,0xa6bd47331b7121b17f474f9dbd3a4b66ce017b4d9b1f303aabdc96fa2572cb16346a02bf16bed82fbcb016f7ce727aae,0xee0d2bfb0c69d080be56e395a2e4ebdc9860d180ffbd18499c6632a90a45b28acc896751c3f67ebf5df00d9803732f4),None);
  ((0x75400bf5369304ef526cc034b6f67857fc61d156f26bf4817307d6e532e1527b5edee50ba0bd9abbfffa1fe8c95acf5e,(-0x28ac3889c3103677994307bd9ec1bde54d082684978912b6d0ce1ad4563f9c426daaa20a6796635ab86f15b30f59fcc7),0x35b39af41f0ca9975c76fbbd07fc16255c1dfda8c9c3ffe7b627346d6dec51444d64ab991d9bae289bde3fcc020ddc10,(-0x290aab5a299855ca10d460f664896db71499a05a53a81415e2d42eccbf4c552178e760e66037c9b8eef9eee6907b5741)),None);
  ((0x1892cda3955e4ef1b53b5807029f20c8c89d12fc148a9b813323bd57338aa28aa922e837a22a03d2f4dfc593a859067c,(-0x1464627b8a2254f6ee03a316bd7ba3f23fdfdb699dea5b388d97a071ec231b7615ab9bf5b20b7ee8e47e702c999b15873),0x25bdabddfc7741ff55c66e2fbda817aeda7bbc143949c9a225b0e3775a6820158feda42d3c9fe37a3a72fc820839831,0x581476024929c1e47d9e1f2d98bc642a86e258139c5ffce6e0a80f9d912ad3f3fcb92aa1e50eff531a9ce8911d71289),None);
  ((0x9099ea4500c1bdb95c64a9ac38afd5a00c932dcb44088ad657b03bab5577c8273eed0cac1fa4cb064e9a9384ed425c78,0x2c93d2ab6d9eeabe167b2bf05a30a2d29945783c4bbec14b5c44bc6e1200818446d1beb4637d7923d4e131b18d8ea580,0x51ad84177db71500e6c964a8022c69648bd1dbfbb332c1c63b0e0c8cae162d9f16be4151dd87ebb90e760e17308e2ce9,0x28483c401dd9c2a839db28d65a39fb73eb1f4a8f45c6568d6672537197c1ef079caf952edddac83d2f0b9e12b774ad24),None);
  ((0x51fad3e572fe111931aa82ff898fab7011c50ced880eb18fa0e02f6e3fc432a62fdf7c6cf0c7844dd85e19696800bf70,0x89ff4b0a1eb41cb95ee68e64e31552bf3634dc6f6e83ca38c65606e873debd753e570b07bb07beee16388b6f9bf3c490,0x1a40afd9be4d684115044a3fde83f7219db4068433ff125003f121e11ff8f1cb752694a57cbc79f67cff2e5f7f1981a2,(-0x17e2058400f5345ce61e17355d76e8cb0f38b3e131a2b5c5bed6de2505c2d33398429a5d0e770de140e14e4dd1e8fe8f)),None);
  ((0x3a0c348977b227ca4e819ce8f7ffb43999cedecfba164205409ad1d7b90df4f3add167956e9d017c9f66cc275cc4465b,(-0x6a02d5a627d40ed1c68b945e620d5d64113b47f2eb0c5471b679ce0b4e6cac31d08035cb3902c70397f58ad24b4ea567),0xd29886341e8152d1b59faa66530a3a694f4e6169d5b184e51c6bf9e555240064dc289ed819d6f4e6a27fe36b1a2b2d2,(-0x172ac8483bb6d75ae12795de7ea025df96e0ba933db80c39d4bcea015f59bb63c3a0be297cc68caa4356d1f6ccea6603)),None);
  ((0x65672250df3dca03a8844d8a14b9c19c46dcc4d883f9fb0ffa419877c8b62a1fffe877be8ba7dd48f04613070dbb646f,(-0x1c3bac458e4b1dd0be12c9cfada5975a741bd9f4281edf1ef7a64baeecc72f445e3d4ab0587e33e996e33b3306f2160d4),0x282a8aa071d3f9f824ddef8e157ef82f1780e1639f8b13e778c4239c503b986c105076e12ef1951c62c957e1f5855e2c,(-0x251d414a90bf34feea225b306237cd38587dec1f8a33a3d6ed41eab75ab7958bf2c7b8f006ee81de5868b3ea4c901c)),None);
  ((0x8f09cfe679102718b396b223a40c41e82ffec3696b1860772dd3e780ff2c2f972322bc1a3c95da10ce7b07d6e5fea492,(-0x237da3b106b925c80a9b80d3ce8beba382f20615b6e5d2972ece48a1cd6374030cab56d8c0cbfba7e0be46e41434c9ba8),0x4febf6a3c24b161639df74670178662aaa9a59610ec34673bc725983366a9ccf316c39143bdf41c820956cc0ce3be779,0x3009b0969f0374e864e3ece5eec379282b95cf4bd8d1f73682caa4c55ad661abfdb0be28059145b02014ce324e16743d),None);
  ((0xcc83155b487815d3d26e85cac216476527e570a70c477393099ed423c2d7c50715c7f28abd293bf070eb17b0c5397363,0x21362d11883ae7810932cf460edf9d4c5483df7b35a089707fff23c232362132d472c2bb983deaab1972ae7a15b76106,0xa3612d2858b3a8203ba18c116e2c693e1909ab28dc70566564aa575fed75fa18e6e0a796c461065a99d33d832327c2ad,0xd5f30b8fea9b6ce38fc9dd746615ece4263396a7841717edfd57ac30a94e958be5a2ab78d09ee72c806753a8b930f7a),None);
  ((0x51804019f64355aca6a5705a8aaa9ec0a8e9734e62e912b37312d6d8cd397229759ea6839484acf1740091df33e9feca,(-0x1f242da8770a7b18c6b0294989f3f7d1ee6a4f4a884d670f616abc5f46c86a5675b9a3423368bce8085272dc3e20c003),0x19f268d097d9dd509efddff2b01923ba198a8b49123fd3b4b3ee2af08f42832f81867c37fcc076bf93d0da8683c4eed1,0xc74c00faeaf32cac0006e2bab99a835c56e82092f8bc78dc93b844195b083790d6bda6ae7c9b014c5de73217bc0096f),None);
  ((0xa80ef1d232565206678acd13b8a7fe687aaa5ee74a84becbfe8dfe2a49ee52ed4c0c8d74b1c70a8d40a91fcfb85bf964,(-0x7161247182c1bfa42a19d8c109066b1c88a9ecae26a12d53adc08c89a8d91cc0a829ed46596ba3b9ae3e8b76bb55d60),0x6e539e43397c3c76868df6f33d642a2ba2300d4f9a683cd225a837584a2fbbe4f075b455416d63bfd9279502f5978cc2,(-0x1eb18b7df7b447bc19d8014dd5483fe2865a64b82e080ae9dba55db7f289907d08a97ad2d5af5912e5885db24d4fd0ee)),None);
  ((0x71145d461d5c64c387c31ae0af0938e2f5f4c6a568595bd66a783d533da25735194de4a8d1720441464ced230074d12b,(-0x2b0612e3d803c7afc5b7acf2d6e9006a72f218acd4f179a61b5ea1bd6b292c0f128b80d1c332b412a454d71f86c89889),0x31f2fbf69adc2bed8f82aff56ed08f706e584408833902f6804003be9776a012a145d55834a1d3c39d1d15b6d57b2a02,(-0x26c16e144299ee194b2c3024c2cd08d61cfb2a487c340d8023a82a59d8caf032b124a2abd261e1fc30afb7f1d005832e)),None);
  ((0xb54f4e8ade70d937e19653355147512015f6cb71b3fb1be18e7415d5d4094dc723170c377c2992ef02cc1b8ae288e42,(-0x2168471cb98c74ae8d17577e677c5e38228526406f964f6799c3400fc8ab27803226ebffd13900934c58d119fa5039878),0x80693da1f059c7b06ccbf4a345131a3b5d40185237798678bd1aec209cfe2df5542f0454bac4742807bdb8ec4fa5e5,(-0x355e0996b9b35b6ae06e041845491dfe52534279a3039e83a44ff97c054e3352ec45b846e6aff198122804e3c01dba)),None);
  ((0x1868a906a3f41fb2bde8d48122ed168b475c06a74e9cd01e2f72fe347584a54165aae82116941fe65c29f5738ee709e2,(-0x20aac12ce7c1f21d2f66aaeb639b929f77a609a1d39dbafdf45155db5d615fbbc6af56d4b381e8ee08d11d4e513d2c200),0x253ca7b03bcc0efaf22394d3d729443aa3114fe7b564cee27077f8c1205c94e47329341d8659a8f4d8c00ebd977a38c,0x82cf63962dcf3195d91938d539981d9a62a476475678d0be7875ac7895b987c04da0b0e1e851ef8cc70f6a4026b5950),None);
  ((0x2dc7a1af1b1683b973127eea563b7ad3f690f925c57ce0967e8314ff9799c232f7068de16eeda4ceb7b63583263d416d,(-0xae20625973a33bb35658a845ceed997f3da1bbe6d26c2c5b5868ceca8a3893c9d9e7de68385c248a0abbe9041a8953df),0x82fca8453dfbf285a1a836c4f7c3e8fe0d917580933916cb05c4a629e8058ea95d307c4b40de9fbcfe0d33addc88d45,(-0x14e7d5dba9bf9e8fdb75ce2362b03e62358e148f6f75b10488b8146037836dec0db926a024766c4642c3e415fc472544)),None);
  ((0x47b509c2a7ebbf48db2b3b50e2f20b5dc69b1ddb8b281cd5234e21943c306fe5f03683139b2516be03b9fe5eaf1ccc90,(-0x26f4042d400b105c4dd92ff7a4dee8ed75a44102dcdc03e77086b5942cfea8a532eec168c147102430d9e606965ec4617),0x1415eb70c6c57b48697e5c87c29757a8077a3623566fcb039d3cdb4c33c01adb1af9f84fb2d9ff46cb487a50219570ef,0xc8136794bbf2816305f2dd9921f4aa7f9aa4a8a2e7b2392a0ac29e4e61f8d64d3354dc044f3616c6bb17e4d7804f3d7),None);
  ((0xa1a30f11d486aab44cbc619186e4830a72df6abb72e09867db59fa7413a612ec52aa55a5242c9aaf725add755526efe9,(-0x12bbbede26c5d9306b1b7818546612f0c729e6fc2b9bf170c5ba00f499fa5ef6a8c4eafa2ec0cfa66439d9b5d049bc686),0x660e80d09ee91e59dc71c91f551d82aa12c27e38a8fac85ead13f862218ceed84190d7a8b3d3d903f2417bc6496e778a,0x2f59a06aab1dc7e52d1a2225349ddf2d73846d8796927d22a15e057d858368fa26e9c8c3f9667dbfcb6e0ae9841e417f),None);
  ((0x285f11f385be93f791b9da7c25501e3ed87c5697ff90fcb15464ab47f1921c52707aec703036a87eafc98b3abb107254,(-0xa86e73ffb1a4cef24416a262335a60730dde767e659e189ab00caf67fec48f0e24e601607d82fe06960f779cad603768),0x65dd8ea6dcb1119ac9b992f8013ad38d7f82c999df50151effb5de41e3339b1abcc16cc3c553455bd12032fdb5f2c0d,(-0x9f8aa1abe96199de640d9acd9a017338e3f1dae5f32ad172921b1ff460b0bd1a9978ae6beae01f63fa8ec0295f57f31)),None);
  ((0x7bb7e2afcbe2ba4fceb7e297ac21a4574e8143007070e512568a0a0b57e9c1f2b45e5105d36c8da7face1de66ea700a4,(-0x1a11f9c813d581c90fe5aa5beb1ea191e24643ad9e15f7b606a4c0dd76ac03b536e6becad23601afd4fe28105e1e0b890),0x3bca37eacdfc39e3c20f3d050e14b29aa6e343b15c5be978d72d02a6b933fedc4f7d594cf3fa9ee50f0151f6d0258b0e,0x126f1631fb64510e0dd9222a7ba4f566075a8aab3869c4372bddb778ce083d9abc0250e56e6ad21f6667e6443985ae62),None);
  ((0x804e45040aaa836fa9b2c1851659f1830c5190768663d68997ea849977aec5ad208a040ef20bea5eb05a3bff75857226,(-0x66616cbb6caf786753ebc7637b5c24592751eecd5de0c4ea19a810e4706f8e25194dccfc3b3827f6a16b8083539cf39f),0x404e5cf22bbc3128025e3b423a662b705d3d7fd6be18343a5b17c76558ada1d1d3550294a41ba5bfcf0ce47ed26a26ae,0x49bbb2d5779c6cefebadc40fafc1301999c14e6eaf12b1a1cf1dae24a1c253c809fca94b7160ad74ef2b3f74dd9b6112),Some (true,(0x843e3219180b2480fa4a3760906e222fa0195aee3737b16ba2fcb9c6a6dba290d1d7bc29e79efb50a6f09d9227f6b309,0x53c6162de62295e0a8a315e5ad87ccc77bb42c800f00d60642f93ce83177bbd09b8252011a13a5b14a9300c49cffb8ba,0x445032c62ec0f2e4bf475f589f100603e2e99ca0d08e52d7ef27a7177ce2569f35956dfd5467337b41dc26a80f3fea41,(-0x3590d77e74698c9fd02217c1608f95469d48ebc5619a09eb1c3f65ee095cfc08b61dc238b3eaa16177c30afc8a6abf48))));
  ((0x874d33582167a5f8c6cd49e5bc9257856e2ffbe4a92f5e1c1e861ed0f6c3e2f796c5d406232c727c23f9be72902cde4b,(-0xe03a55c4333031423b080617252c663b1e4c49766e4809fb353044bc71be1851799b527f5436c2afc8a632bbeffb870),0x4782836ee08ba50c8113386e56b5a7b06ed5379f3471d5f3633d846ebd6aa10db6646bf208bde3fc6f0d56da8fc949ef,0x998a5f4a5b5c497e38c98d9580f120dcbfea5c553a3d94891691dae105317f3eda33108f2a847b47512da4e299bcf56),None);
  ((0x649f76ec4e34eab54a89d104e979d2240ac72d757780043decf721c9c44aa389579862da8fe6debf763d6326271885c4,(-0x4cf5a4c40821529e7e4a48bfba1781e8d29c186f63bda2fbfe6ace9a984351f2314106db19c6d2c0917e38c6c69c910f),0x278cf83d8de12f5241426b6c9f8d49cc4e7d43aa22f2b18e31f4ffd8da918d40939a3c1e60567e50ac18eb74904161c6,(-0x26692d352215777a54089a21149c71d24aeb2a65467b47d12a9a3989936836b659cb06627d281409f5bae1ef67290b5d)),None);
  ((0x846f6531b94ff6d067b7d1f210c5e196aed036423b363bc9c9de5f736ec37287a40a7bcff3165fa3cfc9945f220296de,(-0x1425e0d14d1ae03206ac9a5e6de78f41f75fbe5bbb2eecac8a03e831233986dae7a042e7d8f3d8e3427949f06d6ec0ee7),0x448310d430396fc083311b3be9bade05008fbcd5c189a93b6fd839eeb53e8106b5ce7d2c007cd4d41bfca9fbbd8c3f49,0x627033a46febf7a9847e9a72cae7841c093db3bcd1734bb23e7ef02111e44bef251468491d03482729c52db00597d25b),Some (false,(0xaeb0d5b22d28af8acaaa45904f8f3fef52676f2fd4825f4e5d469bcddf894fe6a9118e4f12dace293532f68f6df04ea7,0x7374c057b8f3a0b9adc3013d67bc99c82732d456d92c2696c0d09826a89a869d16aedc855865e9989cf9a595389dda30,0x7734dca4bcc361ba92fe871f1e1d3ef2a4dfbdee8f3cb87145de058bcbed8cee9c75f0676856c73103d69603e9857573,(-0x1e919c8d33188f4b56af152aa376f3ed762b66b27708e6bcb898af45b6211ed47efd853efb442da696275e576e482e58))));
  ((0x43a2e9bd5f51afbfa988471ed010a52065f05f120b74cc2bce51be58ac0fb9bfb15bc791b673552ae6423bd18fa6df93,(-0xe40fdaa926c2a8538d56e0a5a65347d7e3b1dd9dbc097b9e39dfdbcb976b41f8fe34872aa7f3a0d33d711eff558d2a7),0x11deae05c8fba8f9555603cf785b2c0a124d1d5beec79d6609befdd705550c01045f51277f5eb2074c57ef27400817bf,(-0x28eaecf5dbe2b12ce30b7c79c5397cf0cf9b58ef0c144c42c54a37011a652f9e342b6b538c9624ee13a42f9dc2949a5b)),None);
  ((0xab9ad909a86b7796c39b7d28444a70a8243019df5b50248364e06b484e5d01a4194173c986c0f6235fef18e387e15e7f,(-0x14c3417766b4d9d90aa717b20ee333ab14e028d5cafdedcb5fb6628b8254c5bbccec4521c76e2f5aa76886c697078385d),0x73083b9cbe9f92f2c1ce4a90cb6bc78f022fe97bd7f7935a579a202e3f53617ead90fcc1ae76555e405b150e63b2da6f,0x403872c4851124ec79d9160b04c99e29e0c9b026a5bed467f2b9784aaec1085bbcd680bd141e3b15ac4f8a786dc3d1fc),None);
  ((0x9995ff4980d768576ef9c7a23f0d4ecc077069fc6e88ec4afaec8bfc32e01e6c20e82d696960662ea73db2e7098e5056,(-0x51487900d17e739f42fccff6407258e25fcfede81c4c0dacf5e83d0dab9e825c5ed40bc205c3a36b84d16ba1dc16b2cf),0x5c24a3090624f93fd5fd8ded14c1b909349ec4a6bdeba5fc85464205d3d34210d4ee98ef0ee1a85eb903a7bfaf14cbb0,0x2d2a1a8b96d44be62f21b101b88ea664deeb7ae01dfc506a50242adef5c266b820c0cca87335ded84241d9f24c7e9cbf),None);
  ((0x92390b091a7901a71295eadc7318522c0ea047d628f4b9683bb3f22d9f78397f0f42f734a91aa0333694fdab8a8f5c68,0x5d00f955e43f1366e1bb89257ef00c988b5b27e806d99fc865abcb44500e619d035a7889234fa2da953792992ed7704d,0x53851d4c4cb9985e92fc8d86b9e5348e3fa034b048c9ead97135dad650b6dd3dc14a21c73b045755e5d66f5762a431a0,0x88eaaef0e68702962391a9a0696b6ccd8a4fcd3e44621018154a30df6297f403adbc94add50e3cb66e37c0c10b213a4),Some (true,(0x7f3ef426f741c4a0f2a12f51e34c9ed2724f01e1b842adc60f737c0d15052d259961dd48ff164a536b27506a0b4eb6bc,0x4d569f860abcd90bcb92d967b9acdac7d67d75768058687242ca1530852f48e7ec5aa182cfcc6ad0474038c2af52b466,0x3f3f85b9d50d5236a3da9ba57a335c2c50f30742fb19751e4995556f06f49bc4b6e00aeaa375d7cfb05fd3a1400ce894,(-0x5637c8ff74dfe3c44b9cc6d90e9af5c4a3a5047a8f75bac8042c02346e053e8e3888b22d15e7971f39fb2aa0f849009e))));
  ((0x9ed12d307eb610db75935ca45e199b12d03744e8ec4a944ae94e2df22f7272061300bb6ea6aa3ae21fc90f98052b886e,(-0xcb64fceddbebb31e02fd52010414bb92305b1f323b523098ab1a7dced89ed6566078f0f6b43d5e9ca150c847e3399b18),0x6286deb2ad91b7d2306314ae0f422f8109e70d1c8627c4323e26773728232b39467c77329d6580289218fa7f770c56a4,(-0x21a21d911f827bac76b3c64c325e2f662255cf2defe0502815f76559d87977a8b895b181ff9eaad8c6ee797eab69c80e)),None);
  ((0x4f91ce89b207d42db9bafcbd47c6c58e2d2b640d1000a1520d240a56728862a3b75bd95f9e0e3857234a32351670c141,(-0x296336deab163a65c73759a70438e82fd471c3965eac3165d1dc8d9d2dcf94b748c9792f00ababce33e19e73c8efecedf),0x18bb50849a7e6667361760f5ba3f12add2e0b0a85a1d25f1ddbc3a142a973d26ddccea34b3860bc6a5396fb70b55cdd0,0x3a0bea852876e33943f2ec22653253182916116a9570157cdd6ef269e29bab351d0bad14db0273ff10ffcc6ab9ce4ae4),Some (true,(0x4538a34f46ffd4e039d27fbc0ac9b4ef09c6b08dc3da89254088d6f455d353bfe0a96737a171994ee83afec28099af43,0x1f01f9bec569236434c44115ed1201fe5692da981afe7c9e152032d09c79e30d7f13a60a44c61dea0c9da2d93def0fa1,0x12b79490972305a4aff0990d660032f2b841a5c666514ba7f7055a32b53ee2d4b87f0af9077ab1c9b274b121aa83404d,(-0x2ea700158662305cb9e753f85028833db14d2c24cbc607ed149813223d9d64f3b23a7a4d9562e941298c4a0c1d4d4768))));
  ((0xb788a972617c0bd6520a5d085dee3a8296fa629db4113f2c11d2305246dd4b74fdafe3babad0c1a8914394638b958747,(-0x1cfa3d56afdd2bf30ff4e3c2d682f6cce0b023052715052cbcfed1d801375dd3bee212520a283a1c453a0c272a0fab297),0x8394ab36010f2489bc3cbc4b7195bf41aeed57df37141c0d922d83b34d0d3c0a4c2ee74aeb9e7d7f7d1590047d47b9e2,0x89335338353d0462a760b3634e99dc37b807c60254cc42917a0ee6720e2c84502e80d3f84114cdf4aea6a0c69a74f3b3),None);
  ((0xd3cfb46179baf03d2505ae9458b192e9e3d268634363eecb13dd2667b64d2ecc13c45c46d7ea5fca9c5f63019cef5bd2,0x618b005d9728343da992785eacb11f6ca3be6c1b2a4565537bd3ff28a2ead1a4af8271f736429dabec10fab045034680,0xaf400bdde3663ca1a94b86fab136efcd4dc44077f1abb63a8d63921711f9f23050d9992539d1e31ff733df31c2dbc7a2,(-0x3351cfa449af4d94f0e211acfc72c92130d5d6eb047ef00aaba8cd69eebc7346bcb2b3959d3ff664bb85135a3151f8a4)),None);
  ((0x4f0a825e3f9032b43efe7b67ab0ed3224e6a8be6b575551b1c6152d9b249f5704ce432587b569fe2e1fdd02a82dbd634,(-0x3311cc23e0c57f2d37ba18697fce355fb8fcafc430fde850b77f692abf76870cfbf7cd44cb3514d77801f8d59816b9d3),0x18677ce49cfbd1d06622929223b773e040c9cd7332ec050d90bff3bf11e54a2bc270510493e717505aa14b7ec3a383aa,(-0x270da3171af9e61b160595d252c423d0a68f35452b540543ae31b73c7b0c04db17126d943fc161edcff202d3b9a5f3c5)),Some (false,(0x61184fbf7d6157982ae176019f77df2419ce70a3ab0874ad728918fca3a7a7d0028c1361e4b9001f7557a737902fcbb7,(-0x14dc1371e0c7f56bfae246539a586323a3658ce3f074215abac0e52fd41aff6fdca6effe02ee4a2eae0fc3ba3e6c32a5),0x24d36ebe29c3054025bfb9c89793481c57006e3772036397209da454956998b3dc2d693d47f857f5a8e92965dc92c419,0x456f522c724550145010f04d03f46c524765500bdf63a03c0d8c7699292652eff6502269132af71f6cb8fcf7ea2a22b8)));
  ((0x73a82772139a87f6d0353fa0d265f04a602d955d09fee290361f83d5538f679d52ea25b0324957c581f72d2d05cfdc1,(-0x106b2413077f4c897d6c6d1c58f374b814fed03c2ae500ecb83efa28f80ec7733ea2d35dee768a3d3b3fcc214fe7b13c),0x344081e4496a85c8bf8fb5c628fc0c140b889955ee9b8aa820326317b8ef485f0154fa28651912ad5fcd214128bb84,(-0x46229c83e3648bf1352e8a5863ceb44943ff4b5185c90e7902c3b3844f20bbf6330bec0c4e8579c45a0e8e840db66b0)),None);
  ((0xdf4ba47ae95ad80889eee8f9d3ec998d7e3c5f272f27eb1f82f4e658d7b478d63be46f43e9a53375a6b5fa87b0b3a0c3,(-0x443c34bb9306c8828ed58fa1ffab5d7d67eeb91c7a980f80463a9a7401e636421f15d39f00133c1eb38c2ed0906658e8),0xc2c4dee7ec3eb599196662397b32ceea42e8352d232024807ddc22a7e885289c3fa61b1f601d0cfeaf91b0ae55863630,0x470f35f7dade324b5e8884e5ba0106825d44bb55c7ab3f880f59aec96b0741a1caec3226494e07d0b6529ed072007ba8),Some (true,(0x56056abb20c8b78377d855c852f6eedb9972c820aa4a581db1ade6e6d44096390422f9e1d4f0f8093fa34bccd08dcc97,0x123eeb1ce34a47705397818780517f8db84c8b53da1a8d7ecc6521bcb7b754e385f1d3c93697f00adae1d3fe935606ec,0x1ce7a3d311d5a312a10fcca64d96edd1da2252962abb1cf8b3e51b840cac464f70d175036e96c5fc902e3affe5861966,0x20d91437a460998fd6bc831db6b10e2f42d4ec417df16f6f4d3d7538b2a17025cda3af6e58a89835978a7dcf8c5a7587)));
  ((0xc9d4114715b2de1dd0aa07f9ff56e6e076f692ddfebfe8a254ab7cda17baea53a2911a5934955af123503748001b0d77,0x90e1aecde771bc94522e497f522853b6a86bc6dc694d1cb03c31907e1d9a4952eea2755762238ba01a5b56deac9740ba,0x9f1eb2ce3ef955a97f9a99cea2ceca31fd6d956fe2f9b2fd1e0c7d49834c73c744df4603101fff3b75befc74d03f8184,0xc1dbfae6bbc95a09aa220047584e5e0c2fad6e36bce5a5d37f571f464a299712f25328c2d666117d7ec5146f65fe363),None);
  ((0x3ef4959a49eb9b21226f4cda32e3aa385177031cff05d7e88adce6cf7a757abc43bc04587abf37483bf7a3ecb71fcb83,0x2087105bbaed94a3bdde9df08350ffd4b5e36452c49b5f73eb838ed690e0b3692ddd04e5250e4aba900019ff7df222d8,0xf7b62244157ff4d0b3afaa6406f945a36e25ab3aa18dfbfab70f1bfa8aac4f42472ce3a9771723d958bd0bc98bf6cff,(-0x2f4844cdfc4b7282453ea217dd8ec329eb8c24ca2f5329435d23f92ed10a89e65bedd87d706c35311006083d38dff860)),Some (false,(0xa399dbaeec3fb1b1644d7fc1b57c6fa46f6f5577a55ae0c1eaf2d4d3f4c3d350d774cbd6e2bbc149ea8f6e9fe8b41375,(-0xfe06c69388998e285af5e3d0b753591dd03c9c2515503a987fb83ccaf6fcee23e6f158f8a860306710bd9966cd723fd),0x688d4a39147440254665238c562b860f81b5ff4916124ef8d000a6b3e1c3a6bba23c166e394f372ea47ef43a6f156c94,0x6911e54a1b2d7f62f3ff15900764957b47ad1e7de068631401eeef469ad98f54109241300ba60ef4cfaf81b7718e7975)));
  ((0xc6cac0bc1068feade0cf994c1a1198b86ceff43de4973d2cc7105588fd252f3164f8c51de4103c0fe404723a820b5e57,0x152bb3cf8dba09a4f7140459b6f82f4bc84835852b372cb696b323fc8f62e8402a549298502c123c7dbb67d72e06edfd,0x9a5e42b7a346f26c7b70143ee205c6ee9dc7955cdadc27863adec9aa0967856fae58f862d3b1d93a1cbb16896093264c,(-0x48273b419644bcae1bd7cce90a77eaa189763defa6efdd4933231c15b42a9f461d941b4ea58177e750ff1f88959ba358)),None);
  ((0x463638aaeb004279b90e75c7689dd11807d92c568c835e7a6ce4bf260400b6e34137557f1a99f6086bc92af3df722294,(-0x8a9b77cb36940ae3a2b63569a2efeb3b52fa110545513e8fa7b0b6d547d5570787c1b103464e6f96c340dd3909825340),0x1341b2796d2a8163adb4ff2e6315a5115bc0189729cc0e18de58308bc5d496c268f50612a61e207b0e5da73435368d7d,0x133eea313355926c22d7ce703b59ad75fc3c3f1c0cfcfbbae356593b1061f4f4679a32774cd4049544b5c49c1d24dc6),Some (false,(0xe4845ddef4917da82ce8a90b467bbf1925e37d1d02fd8d193fb387fca7c1c72dda0ed446c8daa3e30f9183082d635770,0x2d8eb1909aae74c743ff6f5c068e2a0c86f39451f97c589b2635d82dac651362319e21c63452ae17559d440572de2b2a,0xcbfc0ba613fb1dbbf0b48791835088e930596a402cbceb0a560e367a000ad131a2e82f54f6595679cf59527908c25087,(-0x1bea788e6dbcb9c2f19ba47a051df2d537d0a2716f01e958ce5bcd9d051fe10f69b62c6dec1eec21a1699d2586dfb3c7))));
  ((0xa93369059a2421992c123dfee47513a3bc55bc8c8f29c463d4c48ffd7370a218f12eccf7506559067c6af7c60cbbbd15,(-0x6b9a1af08e615bbe70aba4626e9cd9071bb5d4c2a120f99d449e2609bfcca725350b75e761bc3b53769dd54029855f30),0x6fd4eafc68d4b752a50018c7ad464eab7c8286bc92147ffa419fb3e0d36d43a208b01303c7fcd59b85e1831c24bda0ac,(-0x2e5a948a09633ea5178358f12e2423e483e42539c84c122a16cb59868d68df98e909dcf5d6e79b693c7e0f61c8544376)),None);
  ((0xdd39ed4b3e062c314e7e07bae51d582e2da6418323028740be894c052d78ad8b74c360229abd8c20fd51146004eb22cf,(-0x9e127a1c747798742337d014d0d5cdce7fdc287f5d52a001ee425710c2e257e5c4e5e189865c3cc5a7aff6fc85325e38),0xbf2d10cf708cae01a3f2bb3f74ecfb2cee8dbfdff7349eccb4c6794a28e8241ce60f15c3c6c9eae955e867ca203e04b3,0xbcabe3ec14f0a415645b9c53ee40eb005ae051609c89ef16c3fca46af245973fa448f932df0890b9aa723cad88d9c70),None);
  ((0x9cb1d520b7a238330af2a0c42410857689273d83e45e69bf54c66ed989d326d11a06051ae6360af23430f534cc9e2a7b,(-0x1446f5b7cb0aa18ad4faf8977ae63a589972451f37e7fc9b8c3ee5219d290021c2ad2f60750023389ffe0310a96f98f59),0x5fe93748487b189249b9278ffdf3b270ee9115430a91ac4b5577ac15733f39c17b7c9a2971a73a29e5518d9f29b320a9,0x6542b4453d9e5f7683cfd8eec2bb0139e367ca4c446008b8b591f480376b076b55f3018ed65822e4a3f46999f7b46aba),Some (true,(0xa11f505333324c97dafd23f04c82561795683a5cd762df891aa7c410560b3968f3fc6f3c9c9c02fc22c5ba81117a811b,0x510210cd612d9a1218ed9ee39151b876e8dc1f71b20378e20ad3ae71b8341155ce55808fd1538121ee530fef37934756,0x656866dd33bfc58f3af3183fae86e0cbbd9ad8f6eb64a5277e1bf5dc946314b21c14c0df7d10d00729b9cf161459a5f0,(-0x60a405adacfed63b39dcd06fa16c5ac73147bdde70270f926396f203ada3e5e1f3d747c654b79eaabda44c864416715e))));
  ((0x85be1effc730f66e4e508d6281ecf8ec9c96adfd96391914110e78574439f1a0f63e0385f322517caa311c51e338f459,(-0x1630c087a8145690b699fe6aaa52e7fb2563d040ef27b3620291b20ee47a0c538c3804bf548d654b65340ab8a0b4f2045),0x45df1967cc657efa5165e511f32c9f281a33824004854752ea8a999b9defc750292a5b6d4bc90947275603d9bf7c2303,0x5560ecdbb468e635d61fcd19ce3592efc7e59e3c433d51d0ab3a3b35adb0bcf159b6bc5ccb515166fbadde2009b0d0ee),None);
  ((0x8d3865786946786629d217bc3cb581034d7971d07269f31af89ac2bc5a70621c08e1d1a768c33f08f71bb148ef3c2b12,(-0x7815a7920184f092e8767cc04fefc310c5bc344fb78c65a2858a05b3f39599c3e22742df61ae230587d10680f9fa167),0x4de72c3330ddeb29af20190097b86e3debfdacc2ea4ef1505087b409c7418bbc4a5f24ab099dfd1b7c02c30b8da7be21,(-0x76696325e468d95d6cff7fefbace66a1ecc462537bf485d6712e11ce2b3dc35541bf49d6abc3f9489bef1fc3c199cb67)),Some (true,(0x2e48f77d624a83ff0821f878ac3798747227b863b20e093b6b1ac6223df0594133ec2063ad1b1fb2a6ae796f32864c5,(-0xdc0b7064e33b57b2891ff26110bb5d723c55ee8519fbacbeffc8a4a0e0e0366e3cddabcd4e736d771683fbae6b283c),0x85e4dbd351d426ed398f3e67624127f12dad82a7f36d986b7bfce0903501f67b90244145f0e3a4189be427acd4bcd,(-0x133b188affad258e58006e01714b63ee26ead6c1500f40734856abb925e39d19cb227a1399474bba4d68535da64d81))));
  ((0x1cb601269df77de4f2833025966f609db347f6e267d3c2a48eb53c8ebe6d7abf48d6849512f962da0d964557a8b44468,(-0x2ee6bc294120947b22711aeb3979f388eb021a15ba68433f83b0f27ba75edcca89e1c8952fdc17e20ad35ed9d6849afb7),0x33851a6157812804c842e9cb2d71d9f66c03c1852d1fdf49849e5df8d783d4d6d00f8ea7a9c686cd31274ab2cb9b8d4,0x234b89bf6872d364fa9379d78ef8d1192527c308bf8cbd74a9c6e3dd4b445b083939bc6bcea00c8f319d82e83b76697),None);
  ((0xa46d84c2728e77b5114d32105eb1ef4016eb9af528218e54d9d352a3cc585de1e4c1aa1fa7df3fd375f0fdb3bb773478,(-0x206b18c6aaddda190793957006a540231ade0bbbc3223e64e8a480196cc76b39a26ffba05e8e65660196d004f45576053),0x699c80f375353086acfefe0db82728e839b8f988ecd7000ef63e17b02c8e96e7629bf70f43647e0739b87122e6ffc963,0x650aaa23944dc99d1d3b81847d290b43b4fa121c03e924b2ef653d991d75f77f72195d1147883727af2c064b42abb5b0),None);
  ((0x55f0928c2d48dd697a0c3f3b0085b454fd4f6fd8a9c5519f7445c9bee3a224e1c666b3fd1b8530a52d6c337ad90ef0e9,0x177252c98a34291a3bc11b904d4ff1a204ea61850e881f2e7aac1ede445a5aff3fb4f1ac98892338b7dab8b8771101ee,0x1cd9a36430cb7c0fdd12261b923a76e0704699de12fb7a24acbae41f7404175fb867f1bdc7fe59464f8b073a224a4288,(-0xa6ca807db874750e6d86c8d87cc5311c4fb0a5a78214818d3d999a91b6c08eeb8d27ee02524129c5846f3c16e1e2ec9)),None);
  ((0x515ecc6313cef39e2d6e071c46bf62f59decbd070963add7feae95e8ed2322273c1ca773c9154ac92f73b3de54f13339,(-0x40e30cffe11c8a8f9ed71bcb9585c7b445558f584cd4ffee495a3391368bb2fc4e19884298d71f84f049804c7f5c83dc),0x19dd20716e79900f28c5e182111cbfe879705ed727afc5ed852c0e3cee28ece0b9de7c15a165c91edfd9462752f72523,0x10bba93f7a93cf72192f31282a248e2cbc5adfea4e3b01d0ff438df4ba46206c542b1077587fd67524eb7de4ed533492),None);
  ((0xda73357f6e8a8f9ed9c1f9ab4d3f33aad404356996e6d0e62ef9439ab323d30e173ed8d819ba0dbe96d36afc599cb4cc,0x66a05a6d37cdb839a48eadd59f43880fcd63769924a437c117cb84a9012a885e25d24a2fb3ef10e07213e047a2c76a51,0xba686af623ef504bd043a5b01a460242c9553a913504865a7df77c7366d4f436c82f24f1bccfe65982483461889abaee,0x246a4bfc877461a0332ab43079cdee5bec628bd3771b1bc2e5966e05ac5c87b07bb663c4467c3d4ec16068f45760b348),None);
  ((0xe72237c7c234b7b04ad1954e50ae461e9bee4c43f62c2da6f0d988b6c15b91647ecc13604395e13120a499189f56ad66,0x1ae8e7d2d1e87a722efffbe87b9c816cd47abccfd4afe01cfdcc0bb7750d2f44619b658e338105e2b0297f0b77ed4d3a5,0xd0aec53d5db22ad31a11609bb33747102235a58719ce53f282165fe404db6a6d559376115a28fa5bbfd539fcfb411cc7,(-0x16f67ec8c67932a8387a3e2b8649cd0ec0a0366b8c354c0c13295fbaed6932880559e0dec0207a01e2f4e81866929d64)),Some (false,(0xcb66e72f4ab4ba214a45f578abc668f8e381a848fe22c59ed4b865635b572a9f9506c3a84f8a72867b302a7b975cb207,0x69c117d4c832ea4847f0fd19734215655534234b813cbbe40c2e88abadc2d913b3f8301a8e96620f9f97a96aa00a59f4,0xa19c5c020af088c3ca638a82085abd725cba0da181784c4116c327327317f06d437386b4535fa923cb7ee5c46142d8fc,(-0x65ec8eef40cb0b03be3cf48ef5002013e13cb3077298ab70d78ba90d8d0ba6812a5d00d5ec335d9adca40c32e8b65488))));
  ((0x29a22031447623a42a4cd2d042e6b3ae4bfa6385c153aa2eb19980ef6344a36bf8e8256f67feeef0d0fec68ed1e6b3d8,(-0x13ba8d79f16159c7d39abc2de8556d71d0c09984966a73e6041ffbb43c375743d083896da3559f2883e1e5442c7759d50),0x6c554fc8a54d78881c3cda101e571a4bcc34dfbb4e9b6d90a2c7f62f663284544eb667b0c214f92b655a7bd52502f74,0xae32f2c045d3098fa3b81a6ae313baf256f5f575fdb449289ea33ae159c57a27068d6a928e91a4c476e0e94fe20d7ea),None);
  ((0x9f9455700f3e5bf70553eaaa552580adae2b86f1acdf69bb6dc2cf5d08fb3bba2fbdfdccabf2d5e0220964d109c644b5,0xcc46a8e27d55fe034c1808c146ba0d14a47fe512083d5af7f0d2426bccb572c39d6862f616429736b3b624eabe67dca7,0x637998141904b183eec7462ced49711480cb54b9d925ba2166ccfd19f55636a0dbc639660d21f88acd4cbd3e94632289,0x154e6df09558c06c0a45eb6f590e58df9be87fcb4776ca8c8e80aa9f978ff5cdb48f6232fde2e6de3ed384bf3729a6e),None);
  ((0x27dd9f0ab0064016a11ead93d8a9d3450c94d9be6a465a94efcfa923eced071366c163bf5cbe6c550dffd556ade29786,(-0x43c874fb1bfab7ea63d586db9b88746f881ac5c473a93bc2fe32a95d14655fd9f0e60d4bea725b71fdca67d5f549a123),0x63546513ce4196b894b3e099df018f08b106091f37a1c4085b2e78f74f174652459a45db8aa5f619cbb800fe47dcfe6,0x7404dda5251eb52c582578ccfd13ac4c327131ec2df641524f8524f20310a347bb0688e2e50a594061a4c0051eac01f),None);
  ((0x80e7f0d150826b08102936bae5a680df7e6d89563106a56e0c326a8e2a392a90b77b8a26e3d4c76b21476f4e595a3aeb,0x293266e8939cc61dbcfd7c9d45952042dc16847ad40deb00c9a0b531e748aedbdbdcf795bd4c4b34429e8cd560a771f5,0x40e8c2f5cccad87e4faa07e93fe4a8f319f74fc5e7587997e76283d23ebec9f20a0859970f30a7c222c2d29e3c73ffeb,(-0x507007c8f51f162d32ee85049771eb63fff22aa11fe34da0c4da6b431378001ff9fe3aef815fa18efd663b60d27f154b)),None);
  ((0xe0c40f9ee15d7d3c4da7445bc7069ad8fd70a6aa4041df0a6abd6ac76bc85c28bbaaf96948534fd4105d06269ca7d4d8,(-0xf32997a081509aab86083083feafd4cb8735e286ac8ba84b888a8effeb734d191c736b2e93ee24806f337fd51fcb4673),0xc557b17df6a0b35536b4bf92f8e3d7701f55b87e54ec854d23a961ce1f7547d77832c5463842155a3ba776ca5b123725,(-0x1f64846079ddf6503417a26fa5bc72fd2ca1dc26063d83f722a29385373d6ec7f7603d13e89cbaae7a763f678549284)),Some (true,(0xd8b70225d1d759d8303eb6650edeb2cdaa9b081ac42a3f5c764dd5b9710ed7287c24a563f5a1ffaa21a60b4ca9a170c,(-0x232456d86c6f280b463a18099b6dd5e70c9cc1bdea2e1cf0b50279cea6163c74961cf2b8c40533a0c9fdac3f5feae53),0xb7755673e432065cf6277c8d41fcd4d4e6deaa1754dd81681bf66ac7d233302e923c7ee72f669b1ffa9b2c1b1afe95,0x24a32e024dad52fe78098b9fd2fc9e18e3fdd67d44367ff1a22c7957d800406437ae08d2e9ec9ba3927d49a46400c3a)));
  ((0xb46b214857115a827596223ee195515ff08284be4500941a81a8d4ec38ae44f5d489fe152553e075cdbe526cfd40facb,(-0x13fdc554028be1eb36519a37b3271765076ba2b9af9b63c3d8b3f4e20f2e96f63d5af9272760a1c8f796f474dbe3011ba),0x7f26d3a2913ceaacaf1ec40db851ad28cfa21eb735469467cc0df82bec3f9f573539543c2d9e1bd8ce274ad16e441d70,0x3d702c012ef9b734b1226d643b43a8a68ef227d005d6e9a927b332d4a5f4cb04daa16b38fe6187dd03deb4cb9c83cd01),None);
  ((0xfb811663bfd4ef7de5c01986e80f39f21bf0efeff1374517dda8479cf274f31c3682f9a4761b42e718b2f76fa7742f3,(-0x3de035e94d1e88c1f56d38c32ad2834eb4a0277a9ce90599832929f1490d06d4032058876e547f3716e4dacd47026a40),0xf71662ff2ca82e10c5028b006160265bb3b22fed4c3db4d7e4bdbf734208bdc332e4471f4e52d4ddf8e4bf22db37a0,(-0xbb2711e6acbf6034a616d51384e9f7ace93d2f41baf2e1afb37d58771618963a92f6f15d3c5506cba92b2ffefbf850)),Some (false,(0x54fb7fac7515dbd602c8fd4468aab5dc438b469f8caeeb910ca50aa73c948e9ab3f56a536e03254e26452bc15b3a4f94,0x1992bf5aa798b4df71680de6bf25b1826d10b90dd934600e9844bb896ade69f7b51db0d16ebf704fac7b4a119abac8f3,0x1c3602dcc8b0817ac288177c1ea38205ce5c35e627efa789261e6c641c90f9e38e6715ff0e3cf5d90a3a7ef89272233b,(-0x1896dcb27aeb9441f2deda5dfaa4326bb23d31a9c6e12628605c005821adad6dfa79ac03fc9dc1acf7b1fd330ad5926b))));
  ((0x309d7261b6564a518393d8339bb4509f3e907a77b58af8c4e26328e2bca0346ca0ad2aa8a4986f19703084deb6fce23,(-0x14909ed5e93cfcf0ed09349c5e80ab237c86f12ee83017299e009bd59adaac23ad7d6d2df68b3eb26b101cccd22256236),0x93b6bba23552d6642c68e21d7b63ff3d57a22a563593f0b2d8f6c8190ef141772330e2687c02fef0b1d5cfbc5669f,0x80edec0de1564203b76f6c9aef10db762d8bbfa841047a142d76d5aadf4697478670d5151e72084a6dfdb107d7ca04),None);
  ((0x9a52975d1f904297fc4db752a999cc2e16d88cb9049716dcca73048247aca1bb2b0bb69371b25f6b3d509d97f68f3d8f,(-0x379bd3c77adc89c5aafb03705cab10b8778067546f6bb039d2701535eaa4746672f926bff96d16c2c4aa707875cd7ff),0x5d0778c15b20c5a5a62f11d5af25c878da8fec6b96661ba8208b81fa9c629a10dd1945a0353f865f80307b7cdf7d3792,(-0x35bcb3159d7f30fe68edf6781eac6c73b1b17d744c1769db097eb9a29bfd80e5f57f3020b1f192a7b02f0c588e4c9b08)),None);
  ((0xa50af6c3aecc1ce7e3ac512637dd9abd1e09ceab6823ae0ff1d680cfa5d48ec135c5ba17d0d7f7618c93ba1d6b4d77ea,(-0x1e3a022455deaf68f93ac41948e244d0899d64f4814431b89bfad169057aaa0a780eaaf0ef676efd3c4f3ca3ba67ff134),0x6a67229074796eb93775b6eeedcdbf2a868c51a39fef82224cd280a3d8a01752030a1b7745d6447fe87a18c6c8541fa9,0x526e0c1cd43331d5a14e7baac88359d44822da44b24a8ee5db7d4d3ceaa708803545482834a218bfe4ebbb42fc1e99ae),None);
  ((0x334091cad82fd9ff2acd537c716a745c1bdda7091a5ba52f71d49871447589a93e99671ca0bbf16f2e5fb96a5cb3325f,(-0x1b4c094ce670df3d7d9383c2f2c40d4dd5c24b66b744c4edb7c85803cb8039eaeb7a432c270998ca3f35c65e90394f5e),0xa42ca600a969268c1ab13e9d592a1a17fcad0047000589290e38a2b86425f062619c6e943b3830c391a11d11b00b95c,(-0xd91ced675410e1f0abc21d53caa0f58a57a823c225c34c63efb525a14b209adbdb6ecfd5b4129f55c7c48e6fcd8c2ce)),Some (false,(0xcf064795fbc2b07a740ad74c37b7e1883b9d95957acbb373bdbe5333b1a3b9019971a313b68275dd5ea8af822eeca35,0xd3574c59902d6f5dba49a3cc3df1a8e5d387af1aacbb59616f9421a62ffb7d3f21241deb3442be0686b65a664a1846,0xa76b27ebfc31300b5383adb884869db939b098b91043f8e3ecf62d4802a764d1fd701712063016146ce908eacb7749,0x6781173609175600f4c550d00e86ce41c656c57b85035250ec39ad3b227df9978f47e7a140b4716f4fd75707bdba812)));
  ((0xd3cff2d6ea2d3045064971bd06fedeb2b3851ecf9071028f53e075b5c628f1262fe056be0dcb2ca2b6257d7984c75f14,0x1bfcd41fa38e0971bd6faa412d1a769f20ec73813f253a6d9ac1ffc2f040691ee97ad43de8b40c6c1cab50555df724ad,0xaf407338e3f039cfa10313c517e96b3fc3b60de30d29b5683fa0e198b5b2ad5e81820bf7b56941da92a409d2bafa3030,(-0xa756988bd2ccb44de1c8ea51b0b332a45debaf2d6a77c725e6698db8891057c31bd30960e82c57d58dabfdd7e21f5352)),None);
  ((0x2a9e5357d76a64d4013afd0edd4cd41660fce23bd969a575d19432be76a96c6715049b6a2c6005e1edda52fef812fa8f,(-0x22ef59371507711fcb5713382634965a77a9bfbae2063ece69698a0ed829bcddf201d395aca2396d91aaeaa21abf29507),0x7185543ce3ee43d230ec252167e6e78069fed6e54cab55c57703bb1e79a4ab8d0433d20ff6530d306966a6b521d1a28,0x12790c6e3f9d02b216221a939300d41b190844767de93f6fbff5cca1048e06819559644360aa99478956a5433f97d785),None);
  ((0xe4d5719b3c1263a6c9a680411e44f05088fbe96fe0f1725919c07cda79d2ad6cb4c6d5e187eee8c6949aade9f4bad6a3,0x7ffb84522a1d502bee74f224daa2667079b3e8c01784df8c765f29b43d06b697618a442fe9bafbad25cce72102433460,0xcc8ce452c1bd2144f312ad8aefe4ca8456f6eb5af707d45fbe56f5ffac3351d5213ddd3fdddbff0a4509bb4da7aa9a04,0x51a8b6dde17d6e9bfddae729e6e6fdc3b32eca598af381249372ea7541e75201b5730a4cd9503fa2277637c42a67818b),Some (true,(0xda33658b6a7f2df0eb99705445cdd73d99c6ce6a3faa70ffb34d6c597a6ddf53a795fe80f17dd27a73a9765efd9720eb,0x7b1256cf3fd49398c90ad49ad72dbc9e600cc4371200ca75285d3761963e10caaf8d7f5242cdf69de0a444b13d52128f,0xb9fb93430f3456dfcbe8c133541c4602ad3f3c390fcb47c3856309f0d4b76256b78faf11c54c4492d85054a587c94be9,(-0x3d0d0f62d69dc75603c5a0e9fe5607660ec3fe99af1d265e2f54e325d85829e52bc0dc620ffc0cea8afebdb58c6440da))));
  ((0x9f2cb9eeafb6834cd11904bcd7b0afa8f01a0caee7ee014fd61a109a94ff7882350d35d43bd8c427028eb08664d52440,(-0x29224d0ad040be2d3a191d8e8e68b15fe15d6d15b52c41142920fe9aa0ed1c9e4768f5e14837f9764bf5c01665146e03),0x62f896c6ef5bf65787e1272922a696e7fe9fde499d4d05a86bd479531935b636225ecbf1a58e42091b1e1a0a5aeffc61,(-0x105a2f44950387018747ae5008f2384b76665562cec16ff888c2d663b36bf924e2a4cbdc5a3877442faa123450d39ddb)),None);
  ((0x341003e36dbfb28088ce96e7489ea0363bc8b61f2dbc3df1b4e054dfb25b1eb92d8b9b09138706794d6aef0969e02644,(-0x8d73888dca340e934be9e6c89af9c2a9b4ec0401a92f633a188bad2b0b9e830c32519da9530ffdcd3473c8a452a76e18),0xa968294e112b718d6d767d595159e5712a4891b9048ec9627d90eb346956e11ac94328eaf063ad27e6eaf2ad6161a7e,0x1678af3951da249e6c64fdc924a6644b38110adc4f3b9252c52e763d08feba6ffc41eb967c6644537cba61cd03237b5),None);
  ((0xb24d8b38622c7fa0df174dbf6ceb7f612ba632bbc726d74512c78294147075d0708d63a5147543e9047fa6a84cf6836d,0x34ac72cea4c79d78ca8a8c186f99a33228b9f3dde4d87a1a99b72cf0f987b7ef5d1607956e640c520b61e03f8a543111,0x7c2fed1774273747e8b93e3b2afa70cf2c6317d7c70e60c9156b52522cad7c261dd391dcce179f49981ae3615c37a4e5,(-0x35001d069fba4e592a681886ca2cebb9854bbb51bb37938144c36b1a27102c1b0ee8f53b29b8d43a2dec23d41a3392db)),Some (true,(0x6c0ab6b05f65ce72940941573e072951a00d5af32ad2744656ccfe913b91d84a26791174f862ca940c4169a85b8f9cc8,(-0x99736a12bfed922c2feda5c1544a536618371648939b1a0d8b370c97c2f646a1cfb6b6b417d18f7b2b69e42c618c2a5),0x2d990a9798a49b4cdeeedf99038d0ee6f3e63551d36a279ef909abdbfe75c1a7fe1708b887d5f4ed4abfa57e704c5a72,(-0x98cf90da6b8384eb161465bd3fae78e7b02e8fe0a97a0b6513b6b7d80b44b8c4a8941027b4a400b5b72982625eec0ac))));
  ((0x4b29997f8fb42a5d43648f7d9a15a2418153e8e3daed753b295b974656fa9bca4b5959c697b028e29669f0aed44d1279,(-0x1ff6552d9ca10d9e41bcce118636e4becaf2b9d3c1080076fd0132fb169cc7c2caf6a79d2459d148c23a340a3a8e33e86),0x161166b3451951dd776ccb806b42629c3ad3fd0949a8f251e14fb3583380680ce65c4e88db14374cbf4938ecffd455ca,0x6d771ad962425b4affea0814e55db10b6db162e4871d91413e3e4747ebd011f7aa0e76988ca3096dee2b38c374f7093),None);
  ((0xf370475c30f553d1673f1093c3a4596a8bff141c0863fa4ada09f203ba2cfa69a58d03134e2f45c6d94d899d4182c271,0x1e1d14cbe19e070034da087f5a5ac2eb7d7aad6a5ddff715e7947a43e0c5965edc4bd5927999c1bc0c6c3d9cf5efde50,0xe77e58b78980d8242f6b60f64833cb721248e8b81cf3329024fd9aa6ddb2ff180e729bd1863f246be0e0c3d5d82f7187,0x434f1ae5b588fca0deebc27d824e9e7bc10ac7022fc92a50026e77a45137688e4b357c52f5585e11d87260250c2565ec),Some (false,(0x710ab4a9e8d5830c9a2d99acc6b1a54b32ad6d7a367a775def7172fef7031e7298b8ffab1f4bd0d6e292f27d33cb2726,0x15847f1e3198fac7298bb3af6573665213758cbd8a5f21797cc01c30ceb4113384f20e5ea9df6eb17fadc67bee2e199a,0x31ea73f09c520e90db0cbc4866b95429d1a7cc84496d7648da9a45c050f3e2c999557e01f3e5f3f926e6ee85909daeec,(-0x1e6a10f02268169d756ced69796d5bb87082b5ecd42d5a24a1154cd938aa44114d6ceeeff592584493928276ab8e00aa))));
  ((0xec8786898b99780b54d29a069c64116bfc53307f73a7ac3a426d04c3b6cb69426fa88b65147fe2830ed24caa03be43a3,(-0x7bfde80c16ef775e18c4fa821d55f7e3c78ce6cbe7f4ec1fa6264da37ad698427368da8c309610ecaad07360f2e7afe),0xda8a27ccc528793ce0661f64e9ebef7abecb1ef009a357bffa2dc7c9b514749c361eea27c62f91710d03962fc2a256cd,0xfa01fea1926c765cdca63e3077a591e5c0c12a8f8e0698c043f7a6f5e80b68847e0aa01024b2799a4d8c05999c57291),None);
  ((0x23aca1bfd1225461844809967bfaa8aef6025f36f034969a4f622e46a171d709f866aef584d7dca9e2bdb9298b5d9f25,(-0x12b6219d16ac3d07149e678d22c754fd7fe46182d9e0a109fc10e85aa42fce42aebda031c07aa81d16cba119b45ac392d),0x4f8a8a433233dfaf76b17b3c75fa02fd637994c8e7a5c3695cdd936a46a69a84163265eb6892a6c7f2a96ba45abd9ca,0xa64ba14d7b03512f8642b4b66f96a85c394e6969a500f49df94e0b47fa08bbcde49223bdf2cde8c1fc9bb8592732753),Some (true,(0x4c926f31951523ee7030490284379e09978365c39ea1d96519af83ba7f150a24b3d00f651ed5d895e2bca97ef4d811ae,0x1557385f34560651dcbf6d4f1f150e35839e8776d32a60ef3e3f48266cdd59c3df57b4db8c0d76dc3bd03ca7f21ef1a5,0x16e745c8755ea2554ca6c6900feda48fb478d045f9e499fcd766ac0b66a6b1fd3a591d199c9a0c88505e0877722add93,(-0x6b79a0cbfc6f999ea81a4b89f93d3b12c273f40ae333761e6cac736be4f17e0ef92a23b40078f0fef38955bbe18c5e1))));
  ((0xfe280b808086de6a3fe73d57ffe0ad6eab905ae6c236b5501b79635b53623a7b0368cffb492f242ba2864c0248aef1ca,(-0x1ed3c8e2acf79fa2ea3bf40beafbb9e8a0bd93e2ac55807db93b300f601a43c0b4f643d3c157dd6fc868b675594797e8),0xfc537d1697b8170cb68587336a234cb540749d472b66ee975a1dd90549772e7850ef8f86777c4040213556956170e425,(-0x6ff57907c778c6fc5a2aa9eac94d8167b419ce9c57ff2203abcb2d8fe48aa415fd41eaabb1cfdbaa979ccb0d4352c003)),None);
  ((0xa1912bd514f1f45513632312cfa294f4d6195f410cf41bead9a81eb794a89e6c7c60f17fd4eb551c35e994aadb66e169,(-0x1fc2fd3b8371caa72ee70c2919e74fe3389a02972f7aa73bd38eb28bb6341bb361d7b9b7c18cb3194d7283cf1c429f5a2),0x65f7eb74b33b55ceef2e855c31a2abf4ab41ed2dfab9a9a07f7abfc0c12b056ad0f13ed88aab3d3e845196e467f34d3e,0x7a50d2e69a3f8818f377e27cb99d55b22da1e5167ab6bbd7987821ef8dfad3b1dc721b652b40032032196d3107b75d9a),None);
  ((0x7a6cad407261532998817dc0c072df9adf90abd899f50b87761390710bce900603164b4014b9c086d4b99ead3b5ae6c,(-0x67cbc665e4205f3b75da68f55ff35f503b47a1ffb1761603a791aa4f7d7e30338407d1409b075b9348248018e7d2088),0x3a8bc34410a57032be9eb91a4322284ee6c1170524ec9dc240e3ce21f1f5092baab436e58900055f4d3a9b0d9b6607,(-0x433186f664da8e659510beddd413ecf9b0086770cbeebdd22eb6ec5cc323704dc2afc87ebbd24657a50359e1cc6da87)),Some (true,(0xbdd1a8e466fce4301bda69a4302968f1334fbe0b623a7d53d0763624360913e46c91afe7c914cd79427b0267953ddf84,(-0x7d87cfd7599f2f4c74e9e0d6461d808a01b4f5afb738c42568e27ae4e16acaa83c3c4786205a7da8eb86b38325bb102),0x8cbf3f16746e24cf2712148595361113f5d4b8f088b29f83f443cb335a882b373535ee5007272e2a3ac532a9356a4070,(-0xe4d53b2669c6cd459193861232b9283e1c396ae716c1f56a847adafad2a36c1d3c3c8aacb0df3c014b913ad9d87f54))));
  ((0x7a0084950bb8c51a8b9ef0db994fd27dafb11a633e7f443ca2fa38d43570a99123abfa897bedfe7db970c78d43106d50,(-0x1748ca46f7cf7a498641b93b7dc4ca6f1c3d84e1227f36a7a9ca5e360bec47061beab54c619574d215e3add814c450113),0x3a247e5e53d626ba7df5b4bff371252af56b9245c90cbebe2776d632b85e7e753e625cd928bcbe86c01722a21288c07d,(-0xbb3f587369194d3a69d1c2dc6e8c2f6ad3889ae28c35b6cdb190f9775c95fd7ed85d90e9ae462d5dd70b31a11a40b85)),None);
  ((0x7e17bc1339045504a66477bdb777058500515bdd31f6d81837bdf76ff171d5db6b3afc8715ea24403f8e7c5620c21e30,(-0x1583111ab689b2552539cf56386b239a79d7a81846ac51a609e08655d72a25dbb16af88d16455c3a93d1f080ad9f4c338),0x3e1b5f5641c0bfa7bad72cef5df2937c866b37e9c3c4d469e8a2d7cffb914858d126162caebba5f266d2a4af42a9e591,0x13678c23fce4b021e5d7f108d3068bf90c89b418e902979d51008328b7acb8acf76e375c626a5cf59974e71196463f73),None);
  ((0x2d6ea4cc99e500311bf7247892632e61229471b4cb8ffa6ba608cde62ed0bd955b8c6659898eb25645c66b2d80938b88,(-0xf538e97d71256de3f4906b3a11f69da32ae147062be72fe1b71a0f5420fc19b3f7cab8fcfdda33ac37939274307d8690),0x81015c1f8058b9077c3ac62fefac26d797abffa890702882b44beedce37df2499899763086bcf582359c7f9e8a949f9,(-0x6318a9b259fd4070115618ab2de02aba120f5114154bd5c70b32f3cad869a521a7918acc48b687d21209f061d4f5028)),None);
  ((0xf29c306d773180c7395d3589f69078736c8f4089ef87d153ab71c215858284c6c95a2eca0b2839e3bc0873bac524546,(-0x1d97bd08719fa406be47d50c325f8cdfe31f1efc393589cdf9db56b740ed395f42127769cbf74d24ea83fc14001779b90),0xe5ebaada03ec174ee3339147a821699b5d7589ba3490b677bf313e09664be1ba770fc834821462e480dcb2a921ce66,0xb2ddf3e0a921dbf43477771e1a51a4253f01606239d1bdc308504b8c41afcbd5474daff16f5681d964ff34e8eebce57),Some (true,(0x161f7740a84be0ad1909f8dc98be4d541be81aad5a8d455f2b815ae33c64753133b5adddd27bafcd514af8f0d24e1e44,0xd8eeb7d642f8b146f12c0fd79937d43a4a5d5b3f52d0a01e977589699aa492544ec2a852f8a6a49e4642e5ace06552d,0x1e96c5d3622f9c949aeb86495805b042160203db21b770a49df890667a09b9754dbf18061a3f31edd71ebc6574edc94,(-0x140cafa699cc157c4478d4f703ad5c8b6daf05264f3c751b43d64b8abab8e7084070c8f47a3e2591c206ddd412270bcc))));
  ((0x687538f2629d82816af646d3ed00363b7ffa2837431cbcdbdd6d7596d0e3562d228180aec67dd531489716d4f2950eb1,(-0x25dcd22c13f4a4e59da63070a6aa87b76abfac0869d208842bee9178ac18c1a06a7be4728c3c8301555adcf880add14c2),0x2a9f73f20a590ea5f21432f7520ae0fa50b72575e700bb7d8fb60268628a9ccf812bd15cb4e18606394a0aa48254f4eb,0x4e7794953d42e45af0274f153350d741ac9b41eb1b1eb77bfa183b9d1746dfcca8beb041f196f73fefb13a56778cb380),None);
  ((0x57da7a85ec483f73c93cb0004fe5b1b45b64c948e8cfa14d538fa355b9708ec96c1efcab0a59d6bec7c05acd04979c20,0x804d29cb9354dd205a9a07ef420386749cbafe452830fd2d22e87376d2649e6d0f48e66e7704cee378184ca7cccd4f69,0x1e2639bbed537170fd9b8e7a2388a6830c27c8302f628052e3306aaefb6c99d78760f26d6489d078a6f9df574c9ca9ae,(-0x2f5ab44edd34aed6a04a63032c24f3b1c263550479cb7bfab0c8fecd561be8ac499a8249f732d26be7e3c59e8048365e)),None);
  ((0xa13461e4d8344f827cd3c6aef42ce9eae63fcb12a2481e624bab27056680a66241aed60ecba5514d540c60d29d5c3c9b,(-0x19a518c85a2b765c913c15389d4040e5806fdd229d969e9161bc05d2db522a57b95955420ecd0682aeec86fdf392f65df),0x6582edd9c258d9abe60be9d434580e0322010d48265156e2543457da2d5a9521c1dd104820080ed51787e45eec150769,0x33c893eb9619cbf59950acc955c6a73bddf90edc8fed5e68a67e4b05a840afc3861fccea2cf95522eeb7626a6c5c420c),None);
  ((0x2a3a81ccbdd1182ade58a8f86888e5327cd4ccdecf0cbf8430e5d274cf7b9da31eb65e9976e8693ded89ca21efbe0858,(-0x7448293caba2b3116a9072e42b12b32d2b7d5a2de6e61a94c03affcf24f15a4ed21a125e0f1ab141a8fd5caa26b50f77),0x6f73ff640de99b8d0b9f87d8f09f59e02d948bd8ac80c32defea965414541c6bc0983adcb366691cbb5cab9cb0c93d7,0x34fe7e104c1aa316cf2001607b467f6f44c0b993066534d533bb92ffbbf20fe61610679568d0a5d9d1a7fe23298a000),None);
  ((0x3495abec4a529f0e1a322aef3f58fb3f768b03a5b47c8087ba53607bb6c7a6662d2a93306e3a267806000f389548bc7c,(-0x58ca72cfb0dd3f9941c9ceca219df91f2080b34350cb4f902698459160347a1dd4ab0486b74afaf10d6ce3706cb9d498),0xacd255992b59a2e5f74d774ed16f9aaef22a05857ef974f365050d5ab8baab21b1dda08636ac1f944cd1f9fcff84298,0xbdf9b882f2832c76b7e4f5e17fad628a17afca790dc4697c4b9d352c5bcaab68f51d120527b5dba9e248e684c7d3a65),None);
  ((0x5555e05cc133e715c71f11a69babf98272423ef3070654d3c17ee2550b3e9bcb72905deac27bd3e055b6be7d5e9c00a8,0x508bf3417cfbf3762133d53c13372d7135b68ebe99eb47824e57f7bfdc814053f3db6f536835a5240aa73f398f04ff39,0x1c7223cc5a8737a22e345d6c92be5243bfafb3b98c2bcb153a10d446db565e96aae0aaa65dc219d8c6d7228ff1af2347,(-0x277e9d1d9fae3ca4d4d57bcd2d01e2e770113e28701aa5d2b50a96135a8005cbdd569b5944983f7c00853edbc8198a27)),Some (true,(0x1dc7b6ada6fd055a3d7e25c997bcd7e8c0905b25b4997bd54d2cd1355c96679a347accd71d6b1cd674f238310c13eeae,0x26c86329a111ca5530af065a217455e3eac8202c673059798fb13be440e18e7f5762fa4bfc8c862cbcecccbdac24714,0x376db30dc2a4fcfa6bcd719823e314859e77891bb925688f0335d55f3c19217ac7ff2bcbc68b0b35afa9bf7729bcb5c,0x8cd2ff416eb1f4e507388a032a4cbcc3c8570a7718968b5634dca15f92b7f0330365f5b3c3b6482a3b57d5b3c3eaa31)));
  ((0xae6ef36876c7deb7e68628b369ef46d2da5bb6bcf873dac13269ab9be1f05655c5524197eee27e8a2dac3513b9b79bc,(-0x3b597a17f9598615f14d399558b82dd91f4c6a79b674547f7ceae13946d757f93fbe36d79d124e25bf0cf561e9022b7f),0x76db02f816ad42a58dbb6d0a68a584ce8f78240d68409df5188e08d874a9ac1e19d745bf8b179c129fe0daafcc340a,(-0x42b7f4e0b0762680373a16332a1df68be35b0ab92044cdba92983c720243a8c13b414f78f78d6ea9863bd95ebf8e185)),None);
  ((0x86d559c31d37f5f7d89ba2a6be8cdb4efdd50b488e7e46e1eec0a6efa92b7a5fa10fa4bba24d739183f77f86b5dc3a01,(-0xf63c16f6a15a1e08096d7d3c15b99c8e0bd5a5b4e6fcc5ec44eee83c7382311f40e1513b365358a0c87829477fdcb407),0x47040bc6c0be73a534ce2769310cf0c7220044f4c02894c10dcd366175f1aa296451f1babf6bf0a50283129976676d52,0x3b3c8dbcce6e6b767a5528961d769dc049abc74848bc9061b0abe5133a640e314eeebd5d9589741497c1e69f4029de73),Some (true,(0xb6da82268176c856c3a5f5099b678ccd749d74398f5d7c2a67ca8915503cadb04ab6f17be755087b3552cd87e0164bd6,0x4f51d2d1c538b2e4b06beebbea94e4f121874adafafefa569966c52463ef53d36fad048fb3d0b98167d65d5316a5a9fe,0x829b6b90abd4846fe629b48a5d67b64c28d8785fd0d956cbcc38fdee5e6031a993a4e7b450e4de318008f13ad5004434,(-0x6c432c55e20c7265e1e06ec381670d11034408200ef9f2b349dcfc5ec620f9200ba1d1092cc5194b718d6b10a66e4467))));
  ((0x23c986132950a790016d1db2a7b99568e0acf92d02c1178cc715d5641fda1052468be72e372f4dd66c471cbb9fdc8c07,(-0x1c7ff8036189ee43c278c7fd4f540cc4e4cd6baef2fb64fc49f585876648b09c2c26ea8a8211d931d980879b9061786fd),0x500b94d0d9aff281894a36b35d49af63afae2ef841638246267f3ddff89f0a5526b07a21f425110f7d795902e507dae,0x2b25a2330f23810bfe5b5012fa305696b7a0eb4f9457a014c8d6141caef03c84e4c9de41273481512688f402b148262),None);
  ((0x5fc36c58d77598f2fe2227c4bb8ce0b5d8fd633dac9a4d97bcd022b0c23376567c622e3520444a03ff08c50567a4bbdd,(-0x15031adcecb28b951d7ec34f3ffb82202643d0e8ab419cad5ff0351f59522d6c0ac68a6c74c435d42bbdac54fed0992b4),0x23d29f982d1c994b6a096bf5724cbb57eb773821a47d6224528860053fc52a3df2020424bd21881c545bd4e5c29ad612,0x801e6eac22220dd37cb74591bf40f955eb472c8be9a2381856d31472402d25a94c251d2af4e2a9a607e2b1fb0eeab7f),Some (true,(0xc7cc7d59a5f2ff815ed036833f5585cdb61236f08b1a4e21d595bd3045e59731b928dfa4c30cc22233852754800b73db,0x231b13de2c6b199b00b824806de4fc35b7a1c592d98b13146124d046b51858b2b6f36704b0a31f7d8d9ec585445913,0x9bef8e396440eff673a3f32703789d9e5c62614747b76d07b81a36968ef055fb572d41701d451b1ab353b732021d3178,0x81c077e50baf8b5a3309363241a42c0fcc8dd6fc6c8123ca856a93d81bfcf84acff1d14a892a0759d2e433a9d0b0f647)));
  ((0x47531952325ff0ebd1acc98a61b5e23e2cf9f4742853c0aa177916f6265bc42a784de7723842bebd6da849cc3bec24b0,0x7b5eebb3a58bcb15b1b4dce08fb507ba4f41eff3bee4ed845b78ba6dba394f067eda0e145130018b3ce46923fb37f6a8,0x13df330505bf0a1413a5d1ec53a482818bb186a09791bd022775bc749699ad871f69539fd71bf488541660af55e217c1,(-0x21eb0ded43a415ca1cbec0ebb6c7c73e0216a7fe4928218e90585fa5cddec42b288aa2aec5e1b162fc6fc48cd9a2017a)),None);
  ((0x49a27014ac9ee757315e5e8d4a4a78b48cc12f75eb6d27606fcf0acd44189c311e971881f42d605f25624276f23495ea,(-0x6b3565ff3bd67ef76d16b654e9e946020546f79a54bde1851fee163cafb3bf00756f74280ab6d3fb268ff5dbefd3a408),0x152e0afdd5af31c2fc28a7ae13b11e81fa91722682cd276fd8e87b81de02ebbb0b0327eebfb45bea11ccc1c1fa6aa990,0x19ddeb86fa94b60dc8effd0eb8243d0bfca432d2183e80fd9f05103f131d6289680f1d7dbb70a6b02e41b30a88fbe920),None);
  ((0xd49ebdf387149abbcfc50e88cbee4681cdf742254a64409a2e9f56713423d11c8a734aa20cfe7a81f334cf51749aac73,0xe2a821eb1fafddd07ca7efbb190aea256b07768f7815faed463b1bd969ba4873ce8b74c9e0a336434300559dbf474271,0xb0974d0a5d465ad434d0a5808a2ebf97d446894ca3eb175e388a56bd02bd7b7e0405eda8a35dc6f490729b9e30e7999e,(-0x9f17703eef2b69ef2828b59f23243504b078569dadd8a4ff50bc1692d90fe5cb21629083239a0c1140ef13b09ea820fe)),None);
  ((0x82d0a60b8a093641f7bd6e9d94319c1d00d5b631cf2c0d0b1ad43fa4d756eb4c228e53cf838ea2fef81243c359c7d23c,(-0x1fbb933d12d8497335eed1e7585e829f5e49dd5404014c6da4eacf32a25a82ab99b35434043978686efd02b5096b9d6c0),0x42d892b1f6a4a19c44651df4bb8a9cfd8a2915dce86df92cb779b6b1923972462d2899d1e4ead8f1be38e0b1b818d6ac,0x6503336da2a56924ad6c2d89ad24abe9ef1808cd3bc5ab4c508a4398abbc7113eba3b30dddb5937559c7eed6c51c3ef9),None);
  ((0xcfeba06430b2a2d33f1dca841fc9a04fa14f26da9cbb6bef04b7b72d3d786797db2a38c90bbf641e89734285b291327f,0x7c8ee64af04d8186ad3a9a5b66d8c0077734c082698b02be0c308d05f5f7baaf1512ef65e5a2d0710ac1fe574493875,0xa8dee641e32faf5df042cbd81364c7f3f19b7bacbf80ba5a0486c55c2aca0b664cb18f359325c93b7ec9b7fa7d3a91de,0x11c6b9c881d77e57e740bd74acff4bc879752bf8c2377819d12e93323d2ab997a7adbaa4601c9dbfbde85a1707a4e3a5),None);
  ((0x8e5236bc4e0d639c3c10d3157e801465df0f29211e89669063637040d2350eff7b433d3ad062e1685ee11c65a61353ad,0xffef3dd7a36008b89939f61bae74f5e44a13ff7ae37902af20b5b74d96a0d5eee9e12604b04cbdf77d838ab3ae1cd240,0x4f1f4f2002ecd68584358528dd18c9c2b8915297a0e434841288b46a93f4bbed48a803df152b3741dcb93f0f8fc81c6d,(-0x6778a882e2bcc74d7e3832b9afcd131190e9b4d4d19374daa7a9dcf66057dbfef0c7ccfba638a9507ae9342334aa6d5c)),Some (false,(0x88e7cdda3f311ff31577d4a588cbeefbc6fd15f7495eaf96a2ccc5d6d00872095804ebf93d17a0fe82a25b493103eb4,(-0xc8fe38a9be877599235d3dadbfdf159e0259a3843b4634a88b55283caaa23b480c8cad756cffd59155de0348fb77ac),0x49371c9d08897fde4bef01bb0258cd860f5dada3a8c71a639862dc5726c58e0f4b78dd8c9afbaa5772c489915b4592,(-0x89c127acff7fd8a54a17429d4393cd10d78c44c77689fa07d261919871feee52f4a31b032599a91f750309b3803997))));
  ((0x852c8a4e359701a20103906960b8a0350d142fd5e65a68668ca7565a6a2e2b4c3b8ee878f11e6294b23043c4c99425b9,(-0x15a2222d8a01458647e59d7292770dc808ff125136c6f4f5e997d58e05d77101255ac7e2cb8fa2c40cca252154f890d74),0x45474f751949bd4665bd94d79a2208f37d0f7682c65c46e25a425a2a547300443b7402a1adb84fb975520fe6840f0345,0x6c69cf1fd94f28f3567ec0f20d6cee51050a94b0050462f8e031338ec2a2ad0036ce630fa45bc20299408ce9389f0dab),None);
  ((0x21fbe318a2b0702b7374db1c2cba1f52fa5aac54dabdd610eda511eb3fc6145278e3bffcd3ad5de40ce2db59f2149033,0x7aed5dcef7532458e330090533c9baee9742553b3967612c835b135a4f2e0c6a410ccaab00658917f7997600b6ac77d,0x482e86375b535caf85e661b3a49700a741ada24238bc570ccb5925ed02eebd9c1adbeb91e61eb2dc8251fdf2cac8898,(-0x18215db0cbc87f8b4ceef60664bba8d924fc610e6f8346acaa4c79fda35c9cbc5a9f4fd88acdf12e35b93263f6332324)),Some (true,(0xc84eeec4561f4945488ea1a758973c6bb17f9d4b65d3679cb3582cab2266ead3758a68fc89cead57ed7293abac90a69b,(-0xa23e8c85a616d6942c24b044ee19baa685f3d193ed54fcc9d751d84279392334983b933963313cad91ffef7781d747b),0x9cbb6d6924e7044310b5218dabe0f8d3129682d599cf67f6bc8ae12c6635fe37d654163271b91936f0b06d83617d7604,(-0x10b667f65857e2fac1048cd544c73a0036e6d5ea789d3e38c35d1c993507166de5cec3e8f96da884d33f9aaff31c39f7))));
  ((0x1d431ce916177d37ce6df977fc4f81c29ae68c4e16070420506962ac3461bf9a3951b25e98f070ac55ace0adf2ea077c,(-0x1c7ecc8343b27b90ff1787bd19b37eb25135bfc6c45458295a231ee8f0e5c0c5ab052418d69c4c18e29e6272117c9b9d8),0x3584624f446b3b88c092880eb7bfb03e254a1ddd80a4d9858bb0780d228546e3c15ccaec9d242e0dc15281c4c4cb917,0x9cab12bacef6ab357c34d4377f683463cf68d3b01cbaf0b456cd1a99dc669bc8f1b30f1728d96cafa5251875f966995),None);
  ((0xf6a676f224804ebc03c5be29207f223285135ba6fb3628df5aff12de8efc07fa04909851d59cc6a0a13df2beb5cde467,(-0x1efbb2af0144bdfe5ede2c4e017d3bf7a0e83b6b44927bd023700802b84466451a806fc4b98c77c964390fe44f3cb3b6),0xeda458d7d7720c66c373734eca3e69ebd9cbdb9a0344b1d0f7057690f590faca12e3a8889278e0388feb9d49511fdc7d,0x4b6e8d6c18e118a2b8cc3441db2821ac209e40f9e33a31870d433808a7c4c17a648f22e06521713196c6d06383554db7),Some (false,(0x66155e1eb1178e7f6214d65383a81191492a1f19173db0398fc224d445e276b40f3af00bbee5f3eb012e19ea3f0d4eb3,0x33b1acb22ff5ec57b99d85f3f51bbaa29a5bc1342402bc08c34f2440ab675678eb19f5015ce60c8a463eba5cf2cb2971,0x28b508c908c261262bbb394f10bb18248383b4ac7227aa74bd9772f3e8b22e31d60f27cf02c64171ada315a3b58e29fb,(-0x1a64372c719f036241c14f181418c74f4c111a257e150732029e389857a49513076891db10be4613029600c6dcd56a9d))));
  ((0xc87ab3964d8a3a9871df5026ee58500c2647924a26bca98824b1b1f82456ce7323499742f06b44f00c03e6288edeb67a,0x4d2bd95304d983c6f133151f4dde68013104534fa769e7501f679eb30a28dbb263e6604ca651ba8b4ae7d7476fe5ffc4,0x9cfff36a82656bfc4ea3c1dbe39211888854edb802414820c0e7cff726bc1c2641c5b8ab46af48589cc1b3ab98a6a571,0x1b88265f401b90330bba1a70b82827ebe2fe771e4d99220ab7f4e38a3f1218b32110d0be03272a363586890d5c246c5b),None);
  ((0x9c7e1f3a4a86d077878765327b0acac503b5d4cbcedcf0651f4445556c4974201be922f3cffbad97818eabe86ad41250,0xc21579d6e16867e797d337714ecf88ae0137732544b7c8122f0586b07ddf1cb474ce4daff5b16607d6e0aba55a9dc358,0x5fa9f431cc04d619641c0d1d58c0f6b68082183ecf9c5fc51ad47066a167e6b61ee91cd8acfaf28e2c8d0690a522aa13,0x1ff07d8df15ae0ce5923b7b92346ad177ca1c5b6bd8b0d3e9f73a15f3866f2fcc608e3bbb047b2eae7a96220c19c7392),None);
  ((0xc198dfdc84d2c774e583603e67d0a0eceb9b5e644f33c6e5e496651786d69ed7d3b0ce3fcda942a724fd49edce32d7d4,0x852d64b51261742b466b5840f9c1e65ccaa8faa03fed9a82378a0cbf7be427b3aa878e71dfcc48e1596e47efee06d2e8,0x9267dcd519e57866e38f272221fcf781896f6a4d08bc6b8604cfb15b590fc974fd21c5b5547d7930f891cfab55d92913,(-0x78e6fcc177d432eecf42fbc070adf496478a33fc8ad1d50ce6b73b4af76e2b25238a6c5e32eb683c9eeb357d1d79161)),None);
  ((0x26ac19dd92dd2763eb601ec237b1e76f0238398e2b9d33e8c373d6979d0b7015e9f98889e34ea45651f89b5d9104bf9e,0x25a8a71a6ec5e6888effe91fd0142414e0388656cea096cd2a0cc64cfd4cba1ebff467fa9c703840c5b4f6d44187ddc4,0x5d78b608bf40754afed58c3288851baab2c999f8039b09ec7ec28fa7993d4f6b815f3d89b59d857b852dc79e4ecbcf2,(-0x161fb886e24f1da87f3f827654204198a08794c2915d1b31d47a80624e6332912f2d57a2b58bd6abeefac902492cdd7d)),None);
  ((0x2712cbcbb3ebf33b02d5e0124a3a582081344e84313ee8f3155409e8bd71d8a4dd1f178b643a554cf93f6be1861cdb42,(-0x1623b7f8067600b7a6cbd397b7eb02d6b10e864ece268dac95d4983aea21bffcb18ab1138bdc8830128b85c58b7720b23),0x5f6bb795bb3e2b93990b60bc125f6c7d79d55a05559655858affb0e6e102567bc69af7bf74ebb207d39d2ca62ce72e4,(-0x73b7f4b7f9af8140ade37aee820c9b1c30e4caff2a66f9085b72a90d4e46e9cc7bbe308dfdb19d68ce1a0283bba4eb6)),Some (false,(0x6fa2d4d2efb2a1a1840c608e05205f43b17fcf98077ac822f2b25d47ed883aa13d01b933bef4599d04bf699f7ca9ce3c,(-0x1719cf0238a24bdd1cb4658905aecc5658cadee32cd1dc452d591b76a9f55cd30400b0d6f47a70d371d7baeb4207fc43),0x30ae9c20f7c2510c9e2191873fa17c91acb050f92989766e83b93f1b0cd57bfb75b21ee0526799d7929cc025d8edd0e2,0x4addf2dec7964541cf45bcc5bdbe106822244ea01eddda142244a1cf92580a0060d00cd41e009bf73b8de4a1ba26a82d)));
  ((0x5111a702363b68ee3c9a1e2d537e44c7f538f1beb60bcd5d9ebd253b61b4e3ab7bc13cdb6581d30756d6770157dea5a7,0x24e3388f6a5584d19585854af6d18db20eab5ca2fde54e35d7414cc9ae930612b85b745e7d7c154863891471a2a2fd4e,0x19ac2ce70190af11194f2868c105fca6b4fddbde6255f30b69475c5341f5c7e4361ed8f49ec70c2eee38ec987141ad3a,(-0x25403c1c088e97938ba20eff9cf81b0331c582d8615c8fd6edcf6e8dc98017d8cf32952566c1d79bc66536a1215e07f)),None);
  ((0x417662dc695a526df33672a7cbce180e51add15eb4134c52c4a9b06909e088413eaa4cfbde6f3f4a13757d93730a7e91,0x3fdd4ad1b3e1a73e66786683c5f08fe13bf565b6d951a0d1d9c33a382e827185f4edc1b31b704dc2152a715165a85d08,0x10bd54f336de7b8e3892ef16dee85e03af5dc70beed4f3c8e5e48154175229a64e2b4cf15a731879e41733703ac0eb61,(-0xab566a435dae2c93457c8168f5b46468bfe1d81f0e209eafb60125c8f3d8ed4fb5dc9fff9ebea7f7bba05091c6c738a)),None);
  ((0x6703dfec78683859f3cdc65f8a5263e799e0091c8ec65dd9a5fc6e2a692bc7a71d6b94f952cbc36264d0a4f316d9de7b,(-0x77a98f2202e4c7b4f40ea03bc3df96832a2304fd4e280cec54a1a0ff7e40d4df21e7a9d15e0f3b448c079f27fc1a5cc5),0x29741e3f4c4c83fd7f41c84fb49a38e57a913b3a6b413dba703322c24cd1f13de489172afc895fd2464e1da9cf45fa50,0xd194c920c97b9166e9c3d81c6b7985b189e4b6047c9a5120f95cab0d0ea0c016309e4d194eac94906caff9ea906e34d),Some (true,(0xa7adb09e751ac30272caafe73e3d8b4b27bc623f1eba231b85f5f14425f67e4f35d1582b67a793787de24c33660f5a9d,0x42d452e341848de209611f8a1f76c301a0780264c7b47d0b62a33c790486e0aa9da433dd134f6786d529ff967c12525b,0x6dd41246eccd73b251d1255a43c6d2cba565d798f502627ac62bae117985acc879d8aae6edc36289075a1b383787e1b8,(-0x34689b4b62ef428cd64ca25bc334e73a583947af20af1824eb8436912888ed87a8b4a82ae7047042f82af55db7ebccf1))));
  ((0x3b7fd5f8e1a333a7abf8f17be64395b8d008082facf57d4fd742b1e1b7efc626a66d910b8a7ab26235ecb5620d35d159,(-0xa16aaf2db3e75e53e105446bb4f9cf26495bd183e6ba08478d129bf5e9ca7205a987ae8cc27665ae10127237a92c0450),0xdd42c76b7c9332c10aac22fb77a7f22a86cb553b088e89ee90891b85aea9d336fd0a3429fcef8acb61ab25f798aa0e1,(-0x183861f9d694964ef2ed44a9598ebc62b306291189abb13b883128bb10fdcb792db055efe2cedecdb15240395b1aab09)),None);
  ((0xd8635d74b54c2b86cedda25a9d7ee21a77469fcc7be8d786b236d283de14fcb1776730ed3981ad26c9d8997b60784d06,(-0x283beb1a8032d8fa8753eb6cf9948f30da0921aafb179b1348694374a5aab3073f78d99899cec8473e180e0ce90f0ae23),0xb6e7d4465c52c34b4c6632137ca3b1e4a94058eecb695d2ac4b14acf1df496f68dec3a4eddbfd90a279b6224bb03bd92,0x1e27b0790e106d52473ce7ee3aa8992aefa67431ab47859368dd419edd20945ac9646842fe29133ac51799c132a9d9ce),None);
  ((0x74fc47ebc9fba2758b02e77b6b715fa78b73a6bf7911af947c478059da96a8dc0c31539eb4031aff22571631692af04e,(-0x1d18a5251ed9d5abb6a798bca564ca2d96799612a5d67234673fc783ef7ba12deccf927d49036ee8571743f97c0484d4f),0x357599cb5b7655d864dae2dcf5f7d92e1148927ccfa409f247e024ff5ced36b46b3d0bac551d0dc213b7c953a6ddfb60,0x213870fd58dfb6d7958239b86246540f06e12b9f6d3ca8937d47b695d2940f9dd3320a4f61dfe79764dc702b7c60e4f1),Some (true,(0xb9eafadac17bc0987b70ee1326ff066096ace5ac1e8e9e4b190f4fab85e9a0513535c219d128eff41a87c4a65f4b0bca,0x13032cafddf242574b1fd098d4bf660f194c31f213fa92523a68974d19169332bdb67958dd0e76841aed6926cceef627,0x8705763fb95e8f6c46548b8e443ebbb1a316035323ea10b467d2c25e4789097dc0334d551679a67f9a408f38da38a918,(-0x4f91bd8a0c920380175472d9b8eebcf6f111154e6cace324092ff67bdffe601abb6115e29d6ed068b9aa21bc9f47af2b))));
  ((0x43922e91fd8d812acf6336acd5a522289823652f7642415c45c2405e73b50afdfe2ee1b3e517de1a8d679aa5663a59dd,(-0x2ab1c13d5c73bbd975c7ef839a9ebd171423b9842a2d581ac4b05f980a9861f391c06eb1b2ae6fd0306552ed9bcd3f288),0x11d5d7d991b61163cd3b30559340e6541d9cce508d64957701f6dae4a2e144174c197a865c68825e940e7a8b73d1912d,0x3892c623ca500d30a342cf15d41943ac3fea4008f57c4d4e3e1316eaafc7e510d7eeb6b020971a4eb6154077742f77b8),None);
  ((0x4896aeb0de5dc2c5149ae4fc725e09e68f173830ac005c3b37fbf652db217daefeaac39215c4a661917735fa18cb04a9,0x4954c030d91bc4735afd7bacdf179275c2986d7539447929ede791cf1d4e9e8db5bfc9f3d37e2c3fbdbb12ed63269313,0x14951af4ab8e3be91161bd762389dafe12519336e5f10a6dd8f4580ca27e6fe082c20a9ea98e47af8a3e22ae792057b1,(-0x1c574a948db65efe34d2fca2895300496a406866bcae7faa0304eafafb8475513010a6f777866facda150c7e85426880)),Some (true,(0x91904b1595d912460ae04a7ed2cf025a7708e2da4a0504b475d909c2db781179653264e0ce8968cd99615d7fa4abbe91,0x11a05fda6afc0b9aee051cd2027ff0975d6404f06b04c8a6181354a81f2218fc32e3a703c45662661cdcd2a12a777ac6,0x52c4c663020e22870526c1ea32a3a5886bf49895475ce2a8e56ef00d08fb213558108becf27ffb06b12d32a9d3c758e7,0x25d4241b9ecacf325977e639e6bc33c9cafab3536b55c149d88ca271c777f3e9dba92d8d916cb7d0bca33f4a8488efc5)));
  ((0x43b7eb0a26dbaf2373b2812a02a682a71985d94b8b28fd76dde526ef0521266acef0030add242e0afd50fefb6676f62a,0x4475ed44643906ed45bd91787456e8cbe81a763d9316c3a43b6a021c183e07b2f780a6533d207529b94fa184bad10a34,0x11e9c92930a62f7f55d992830f5a9970857e205113d8514566863b377d8f28d32dfa965eee0433c4cf06242f77fa9267,(-0x2782b4a3892109a6b2d1d2921d620b2eebeb7081ac05857c4700dca626cfccc058eb761e6a7d93d9ce30e179febd9f40)),None);
  ((0x37169f5387162158cff3c9223b518de4161e27b4feba87301337ca7d51d03065f536ece1f70a3fd90990edc7b34b7f72,(-0x2043b8860e90bdebe8967ef4545d82518899ae14420adb76ba073b71fdce900f9616b0f94cd72833bda0467cdd12b736c),0xbdaba75a98f973041acc9505e3b0f5350ab8f89f78fbd8593226e8d1d1cea688bbe4087abd9bc11d938fac23363944a,0x1ffb2f12683f5c9f3f7dd0eac3dad944efed913dac0b3d12d3a39af9875630b4310d44b8d6fce93d15a6430221edeaa6),None);
  ((0x77f3760049b6dc8370f62a6f16fd482897e9aeaea0a3bbb0fa27f18998b02f55cc3da4fd8432fde7af3653bdedcc71fa,0x47d34d6b3b46d2ab9b18f2cde0eadbd3d8e009a568f6609ef10a48f725d2183290a39494f3d3285b7f7a60c783e24121,0x38343f3d7f78361d7d10474c04a6b6f9d098e468ca25819f2134bbaa872151b802243292922b2b8f501ec10c861182a6,(-0x47a5a99d276ec1bc6aac6a3c0217fcd7530e771488e7e2c1e86565ad299f4948a8a208e53ad111a00bbf6f9ede695bb9)),Some (false,(0xf11616443629a7194cf34a943c8b75a1ce31c4346a9e7727c9b9c27a4728273a5f24a1dad3bdb0fa94e54c864ee9894b,(-0x34db63fd0f80df010f5a5cb81407711686cceaa61568d73964d08950a9b59e7bdd4c94ec488ba2097dc5dee38426fe04),0xe30a97d443a38742558a042c3d2d62e4f750ff1ae888d48781f87ea6db90890cb9d2f7e1cbbc06e2e29dfef3e8fa2599,0x1bfb2e1fdaefbb9618c9b89a2e4d6ae67a41714b0ea4b24d33444851f4132624be53632d29aea7f6e2ed6293c35a969e)));
  ((0x1dccf7dad174dfb2a30e1fa25e04fb7c9225086ab55f7d89e32d617f3c764fd883e9c99cc8333c4b1324198fb4e2a6ff,(-0x1bcc2a9e0c764a738a188d1f0d5cb1dd60889a2ce2c2b48715da5f03b4e99add48c6f6bae51ebf23fd0b044e97876c9a6),0x3781443882a482bebbccf2d54c5b40e50b132e6ee73f60e929964233d20bbb3d6faad88c51a940d41807974b5a3b333,(-0x60ef07a47289a063eaf6907c657e6eb2612bb6073363d162a62659b750604ab1692d4468da3045a475923267047dc19)),None);
  ((0x820bc65ca765d58b0be91e6ec8655a66639cf2e955bd4e91d4301d24d0769e7063f868dabfbd14aaf2eed082c831d790,(-0x203a6f0b510fb3bbcd82bc5512ed85f19aea1cf1fe7f96ccc7caff7ca2dc3630c923117d3e149df7c04a096b5a749ad57),0x420ff600bfad441bd706606be70f9f20fbdef0775b70bb4ab45ee202450e3dd49adeaa0e42978598708eca7f8f001469,0x42b7cec7fbb22daf2a6ca86fe5ba903ac4460bd05fb696c683c5f9e65badf40fee1c4d83cb36f706ed19caa80b19a8c0),None);
  ((0x5c880654bd281214537ada760c199f0f8f43a2448ba450859bc00cbfbbc7c88a687bbb45bb825bf4222306e650374efc,(-0x67fc9ed7788164d5d73521ea9a5e94ff3e67e77bd83300a07338a93e3fc33ef3469378c2089f700d256cfac5e7838f50),0x21720cd3a225dc7c608201c52be085e653ab2f0c88bf41e73b53d44a37eeb5d3ea32f3907d5d49e0f2de8a414afac5b7,(-0x17a3ed7365e6c4b699c9bb71414cb52cf2e97d3fa01523b227cfbf80d3c5fbb324e2b334ecbb06ee156c3a0951be3177)),Some (false,(0x4a296403bff8265f4bea0e80f42c90de5e06031c995e9a16d0d1e40a15e47bfd5a876cbe58b627dc6a08d2a1f243192a,(-0x3a0f06451e2af8b773d116d99dceab9be4214103190a1667cf24d5229ad8a536550c871f1ebe40d93deca70e3ec0749),0x157bf4835b41e1b3502934b266f3d4f2f08a53997541c32369325e1962dfff9bcb0e0ae934e9b97d63550ce9e63f00ad,0x305db23dc94ce4e977d9825c2b28e9e6f3b393d483e4402daced095434630ded67b63568886d16d2e24d49163cb9ee3c)));
  ((0x287321b222bf0264ca0ae2cde72b2ea379a5eb2d542dbe876533fe369fbd7d5f003864fa836f67414d40a5b41e9e6c,(-0x3075be1ef5bf9e3d61ad88944d4feaae8a599944d0fc66775bd4829def0e9fd7c8483c8d35cd7f8bcbda6dc1bbbd1e8),0x6642e4ef55651453aa5880f3aedc6a15b1e26f122f1a3c8dc4cde47c2c506c7c6e205bcb1855e3f134426798850,(-0xef29225f1709019771859cfeb99bf960f6a9bc3411969637fa2eaf2dc7eb57d4bcceb605317c25a4c170e00d9b17d)),None);
  ((0xb15b7b267d555124e61bbc7ebe958be39b39d89bb591b98bd66fcf409b111ca05f27e49d5904efada0bee3310d2a0c97,(-0x715c01e8a7e30672756208f4301d2eae9d40f247576ea195a9ad964e5d34dcd4d17c4f66ec9d068e1c2e1eb0b9214529),0x7adfa0fc01eb17162517ec1f41f44df47f7c43436e64caa5ad0bdec8135f5d80c77a147ae5dae411628d1682ceee05e7,0x189aa62da492c02e5097579f57245424ad59601bccf3fe4f9c214638898f8f2e711cded1433663641a4df78165d7370b),None);
  ((0x8b5bbec6823ed8467cb1086c464fc39a64ee46cc9c2909ea8dc3b38589c29d606c513c6009f76d7f9dac562ba5fb77ff,0x6aba2c3b2ab20db890ef623dbf45c6f01ca55f4e66e10b0c7fe875977292b9af3a13dcfb7ada44fc03c58d10cdd9e3f1,0x4bdcc20cc0bc1acd5207f6364b2d931b1ab8a0ac7dd4aa4e1080ef2f04234058aa2fd61e20f3ec2da2ea18c388de1a7d,(-0x573694b5c64bee063779380b268ebe42509bde60526f5a1fd8680ccf421e0bca6f8df520c2c01938b9b8ae26fd99262e)),Some (false,(0x1fb5ab04dc0f8d4be401065dd73f542cd68cd124fea6c49ec701063697286056e5b369bf5ceed2f801b3402a95ed84e5,(-0x808e8c76da65a5a1f4628bad7397b2df7fe562d98c26227e5e87af5b0e6c234d82d8ad410e4d7fa0b548d270e169c00),0x3ed8056746a704a92f331c286207125c56f05568bef584bc0f8e2c6513628b9618ec91a8ba5ff59680e65675c0b7e90,0x1006d2b9e848ac631617c6d2edced5ac7014974a6620d7e57e5ba57254a36310aed7cd001d78b6edb4d90bff98ab0c2a)));
  ((0x1f89c1801cf276b49050ff36d2a1c689eac35f52c9fb4f20d9c7fadd5ae0fe1d6778843013c0c93ddf22ef37d50f73ed,(-0x755461fd02ffa748689f3ffa0c89ccc4b0d4410ea5a9e408b4b4339a2f10b5ab4a8fb77bc822a2e4ffc0f893090b8e87),0x3e2a6fdb464200554eefa47057e0502e5dd596478ea07e7333c40447f2afda5e5fd06b442d1abbba3301127778e52e0,0xc84659d01c1252a010f216f12e9395e26042023a664d2a104ca7f410c46ee377515a9cc028a4d49cf11e8a0a03dedac),None);
  ((0xda2ebf52f0fd1e85dbe651adf6dcd6355819fbbf851a4d0ae69afca8071a874e55a4340d1bb7787ac183dd4ee957681d,0xbb4bb6e99b92289052f12b79ab70fd0ac8879ebf21c4ac4e826a57214b6b417e24a0368e603a070213291018246b69d6,0xb9f3a662933a916beb2e294484eae1eb586643740f22972e9944872e1aa38ab8b7f18aaaa0312b7aa61b6f8274ad07c5,(-0x8d8e0b641fa897e1a58f8a6fa51763105b82719e399f55ea5e4cb1919f6d605bd5e337699198484a7122f88e6a5df416)),None);
  ((0x82244f31fc8078b0f35519410d0cf4496187377ca0a06840dd8db96f9c4787f1dc7ea34dc4f296b9b673466678f4e8e9,(-0x14b4ddfd69695bb467cdaadc5cc6161df33fabb6f6dee4626d6a1f49d6f3e66b3716607b7323f9f4d64dbda6ad7283497),0x4228e5952301624f959f7596209fe1f4d0247e7916e1b41318a5ec47a341c16c6ef3a99be7139e0d32cded5bb9753296,0x74008d2e5e715ea85d4c5543dbd2c26ccd7f49cf4152cd96e7f6738e8765e989dc2796bd213567f390f39baf7e309c7),Some (false,(0x37799e8038f1b2ff5be5cd8927a3fdce0658cccb03a0713d80aa9469c386dba17a464a29c4a5b2a022bd9b0a0076a3c1,0x31909e2bd650d77b330fd32a73973997aad25732a64897270c539166507d4435ce19476949b94690ff59f421f1c5edd,0xc057be24fd035e8463274db045a714748f80860adf924ac526ae1fb1db4a4ffd423ece928e3541851af76f37bdfa3ab,0x83d48f34ae50361281eaed763ae8037cbc0bf7ff6111ca2989deda8a96c6592b32ec981d3dffa015eadb8a945438ffc)));
  ((0xe43b4cea09ab39ec4036a8d1c62f94c383a47a287628892c11f72ffa6ea75bd05b0c050396b9ef570d6c4e44006ea649,0x80bfc44124694f0331c902026fb922d21b1f4d33643f35b3e6cbc8d8d14ef7ecfbdfbf45c21d31bc22514bb09cd51723,0xcb79aebd6c353fccdd0e9c865d1bf7987829dc2051ae3109f88e65190dc986ca488fe70f25ed329dd845b5884261eee4,(-0x770b434ac542442c1ffed7d05af2beecf74a7104106046bd44e4b0de39ceac62ad78a421160ffead473c5afd6149a479)),None);
  ((0xb390fbf8d1d66d171949f20246f79157885dd43f1e882a5e06ff900f1df87c115f7648ba68888b387cef0d84234c85a9,(-0x1f605c4861c58be56ac6f214271298952c9782e00553afd148d00c45cf0494d8b4e67432a8e10499172d73c26481d4762),0x7df4127a655fcb1abcb855b1ba0919bdbb65b40f18e6bfa6de552e16447206a2e7193c449b252da80f7982252706849e,(-0x2cb95eebff36b5669391d5a3499149b936b963b97f57d280ded6588c530b7a78fbf4c7c1635287999ee973ac25d4c5d)),Some (true,(0xf1b37294413b665b38ddcad3adf59e3ba04c311d87522152d7d724b50fbdc0d066064452a48aefc26f892dd860544ea5,(-0x506fc54b2132e9937ac779f76d1cc07b4e16fa94d01e8d251d6da2dc3b87a029fdd140f2c46a01d10a4ce99b565fcc50),0xe4335b84916d6fbd4919edee247e6e24a3f7424e87cc194fa066ad6b88e8050d917b430ec8fbbf0e70e58a18a5003cdd,0xe68068321d41b0c057195fedfd1b5c61be32a6b2943b2b461611f9dd027895aef1e0e88967572615b053ede3e44712f7)));
  ((0x2b19d23568b67f410d79d918937a212e6ced770499823c405e2e0d7ff19c8b6f4023c01522999999584a2bea9d02d014,0xb3c6cb50e82bc2b97ca677f8cbbe26c560c8d4024dfe23092d87417fe1122b3de3d16b511a3441b1475e05316948709,0x741af38ac376d54a467c5442fabd0ace76c1bc1e3d3c8a19ffd01c83f370f3a8326327c3d872406ea61db7480ef707e,(-0x1c1c7b2d229c9ca867b56b43aef08909333976a8048afc4ac1e03493997f65156debf362d735433eed61fa69d2e033df)),None);
  ((0xd15c324759a892bf30360b8265a87fbc837a768d08362749ce665851ff3495145d92a63eca86579bafe817a002872594,(-0xddb6cdb32d2bd787d067b640df739256fa0673d6ab3a8b970426319b597358f86cd19bc923e00dea4b544044026b8e7f),0xab37ab4cad8da3ae5a5d9f8ee8c3006e3837c1bea0a30f147587fe1e58f540bfd615ae64bcf9b9504a065a4ad4fe5930,(-0x12c96f4bedeab8a4c2b557bb2a55cbdc5d9dd00da6e542a8e7ef61937a433273f9671e212cac52ff0b86e4197a2d76e5)),Some (true,(0x2969c8fccfc6ab054451bf5e11f2283fec4cd09d4971227b9e9a2052de251dfffab3830087be24a9817e4d35d92a900,(-0x503b5f6c0d9a5f3c0692ccb67a2b35505d861c3c70d2e196858bcd06140685f51a3fce1f359a07a7e59cb7d15380e2),0x6b30e1777bc12101d300a38dbbff2164b619dff3a1b2e9a1dbab265bc17cb73cad6519a654b2810a6771937b68969,0x19f2b8ef1c4d1b6b12fa2df4551be787cf7e766e03d1afccb3a509735187dbed2cc7bd8e1d02485adc689e516f3b981)));
  ((0x2f5b9d8e1cbcbfd13bb7e56351e562aaa9e0928bace6545b62c3e2a348689302b304acc3a546f065de7ec70c9c3b1e01,0x1e104ca55ccda08260a6da4756594fda8fb2704007b1e401a4366b97b9e70204dd49b7e7184959290252078e15118a6b,0x8c2c4a3928d5ac29a933f756c269256a17b83dd2c8d7246aefcd65389df540b622a401b704f6be75b1543d1e1604a74,(-0x3a24c58915a431f8eac2a51abe0abb5da36e08c99ada9eb1c039a67c9ad3d47c64b439d88c750a68dec04fa51d94aa7)),None);
  ((0x9b906d0db72180710f7288ab7f1055d60235258cb3f8149370a718017c5426659181f9b8ae5da677fe58de53db800e2c,0xa8feaf2528fb669ea0017820fd6eec36360fc6191427b9d7e5b383f70e8542e3454338ab98c9fbccd953a3632c37a648,0x5e88358979a545e80bae4f00887da23e20c6af86d0c6969309ff1bb41f50da3899a682b3bdad4545a923d7fad418fd9c,0x110c3a26931cd266be3dc40158147102fdb5183e67c4f3c2b3cecf3c5ab4163f8f35b0f282c7cd3d86a3bac75b71feaa),None);
  ((0xbf9b8a2625ef793c2e6b27cfba334bcee0492cb12090699b3ee752ff12b7990c6c55d7eec574bf39200fbf20705bb37c,0x14f00959832e9dce5724fb07935ebac8e9901885834c6813b548da237514a7e0c279e012b127b9b8bbeb15a0ea4d19421,0x8f6976a5815a6d7a13901422795363448c1e8ac3fa8f3a1bda4d026af70ec67f52a4194eaec7ac9fb7650c1137dade9f,(-0x64f4c9c40351fd513e71f980f46b172c35028b09358ddcb3d28501cf0729caaedcc4338fb22d0db02e68f4b21d30eeab)),None);
  ((0xe557cfbe0319db5a6ffca4f9e3ab9fe512b6ee8815de0c23440639133e33951be9edaed06ab97e5a3707d9404e34baa2,(-0xd257e391b0eb1816b673dce3f02e5ea43dcd83b4637990f284852757b1768eb9fb8119cb4532047da3683413e0b45480),0xcd7637c8cd47340f4ef995f8b3387297458ce447700cbe94d52648aa64b876c7275879eae72429dcf273b54a9979e578,0x54b185e5c08324f9e2e13ceb0a719b24be39ef8ce13ab3e8836794247e80358505cfd4eb432705c95777909802a12f10),None);
  ((0x174c44bb2780bcaa9f94e434d045b16b149bf1f0763282e2cfda187f8b5d7d73a62f1ac12346f8f86f3ec9f044d36e9c,(-0x3e0c93a48ea937637fba3103bcfca6a498d907b98157a427e6b3561e530b4d97252d26556a967483f1ac8fa493afbd57),0x21ecb1282ac8c25ce6241ae6bd3a1973206cb511814fe992b7a155ddd36263867e6150be9eb4e5a0e1a500ef6c02503,(-0x2e2782fe94097eae16b372a1c9d40e1e012e233f14a7912d50371b45b6cf27b0c7f96a52c75e4f8bbd5aec780731338)),Some (false,(0x981fde1890958455edb96d59504fd9ad5d20015281574ee93f7b8f5da58aed9b56fede0c3ad35a8b262520156842e1d6,0x27154876b1f22eb60f39aaaac02b1083184c8754539e652673225170361654884f51944a3c0fb8a95c8706be0444d69b,0x5a65dbb4b6532e7ad6522960b34bbcbada0cf215f671308d845906176bc4d39e0450ac47ce4f04e2e12115344bf7d43a,0x1cd9a01fa3f3826b255d79df43a704c9d60d8c4ec4627656a2f3fc32208e8b43c6a1fc2e3bd1e80bfa36c4afe4c458)));
  ((0xbfe4695c86b1c72ba7fca954242bb7230bedfe389dd974618949951946ed8e4aa622f529f5038550225ea3fea5840e56,0x8eac863d59336ae7388f82426397f48435d7b5362c242b37826e21e1775d12e81b4b55eaa023919f2305fcbb4a5bef95,0x8fd6a103e92a3bccd675cddde58a168d4675db34bf30eb27413e1f2fca0674b155eac9f9d54799145bf7b8f97f391156,0x1364f5df4d49f5bf6f267bfc68c1908b0533a761164e5f84434c7b06f07cb0d906a56e4beb18444e3e4a7783bfca9ddc),None);
  ((0x3350a349bfeeb149ecd3852d5f6e3ab1a0d72f9b74f2e713bb4025e878ecc4a972be171abd627d4badcd3535b9f85681,0x10e1c39a97b3ac6135fb081979965f3418e3364049dd7a2c16b97cc97b2e68feb8a8cfbab31d9f7a3b0a14de22b64ac5,0xa493a75d8b80f7b3e5b961c2c3a9488ff5b3a46f370f97590859cd40cfc55f438ed48754d11e0ed358628df3c7792a8,(-0x218b33ebb32a8546ece0329c5dcda022625640872b47a6bf6f45db2386883cd80e95010168c5dd43f5d32e0f26b7997d)),Some (false,(0xd2014829275d8819a47d5b13cc17128501a497fa047a9a4cb35af589ffd3e53e310892077dc66faf62b36e62ae9038c1,(-0x3df15280741d80d729c4f87d695ba1c06bd68464cb18d23fa448ea5dc433c2baca65ec16ddc11d533cf514ef83c09619),0xac461a65293eeec760a298c85f7ab7dfa50dc958460eb93612d9b6a5e08aed2829f513cf2dd16f6b2ef32ccefc9e0c5e,0x3c3843be0b98fa0deacea156200342e5a346ebcf4a5695b973fabcc48014fc019ed35a2043bceb1c83b1a0ec2fa0e86a)));
  ((0x1d0b2db26c60f2cad709762dcda3fbf252a66f0dadb8eec2ded39abb8b03eacffb768ed58006e4d265f55aa629fa3d3b,(-0x15b4c750148023db0d1d8f76c2ec8cc080ae937086c503cd7d72c2f198aabef72fc2cf34d890d7e4d2b6e19229a613fec),0x34b88d7620b7dcbcc3582d50910a73f6704f2fe86d063c70cc272ed82403389bc6fe7574dda27a927c0602fe8efa8c9,0x9158e4ee025af1c207a75c56adc5c7f254c66d9c3bf8fe768a82be7fc48fed795e7a2e6f9d1b4cc60fc1d26423a3a38),None);
  ((0x8e9cc3f97c4acb9de1ab33a0f2e64934f2d36f8f5acae335377e6f9c1aae8514ea4bfb35a7e547f130a19ed33f98bfc9,0x907507638c1fde75ec353a2590e488819009df2cf14dfd67e408a62636180588bbdd63457c9f559e9c4fc0965ee5dadf,0x4f72496833f87b8846d01ff495293945289410512d82f12d57690c445894853cd927ab5946da0e32270a443dba778377,(-0x1e035c9cce61cdf8bfd6859dff45450ebcd8e068d20814936dca333df2ed442a663947621e3c89001f61c4c10c493c19)),Some (false,(0x644c4d5a5be6a67cd93fe46242d36ead17c5308bd5ae9f3a257ecb4750d7f54bee85f28c2b3de9660ee04fbca0be2202,0x970ad27005f4469b4dd730ff866dcc5c2e24aadf2daa1a903cd2c9bec04f09b2df30f6ad5feea3496e5a3ca47368f0d,0x274bb32c9cd23e31e32cdd01e5ec7f19651a90990f80a8bc6d817f013fb54110ead850f96ebab252fe5497d9fc1a7837,(-0x1522b0be34fdb6edd5f7e4409ec1080a11b33e9b1df4c4fda06998c9fa88028c57d586969fc4e846a6476a0dc644ae17))));
  ((0x189c4e70254b99efbf820f7b1bbbbc21d8e76eaef699a52e64be57be462b034171d7c796b1e1b9b0df9aee16c4834546,(-0x1b7f976911e2612811283b39c48c225ffca4e942995deea439a5a3855148fc914b9ea25a3d71cdefceaafd12969cb642f),0x25dae24b7b428db497d84b7a2dfd2d18f98e52e26b88181b83f8127a0324048053c7db9471c11398b68edbb5d42bb13,0x1c12783237afb719f5608d46d88f697dd55d7afdb62dee1bbdea57f8394c47acb941117c7eafcef2a35d36f2a678273),None);
  ((0xa87d1260b955258936b9fcc2f1007b1db16bb3a97b231bafdc0bb80f0a29068c1cf9a66b345173dc92275572b1be4673,(-0x14eaaa5a2783d43a6c67c5698bf95cfa6fc88f1887271be40f189042e97510005febcb342342c66d7934a6b004dfa0218),0x6ee46539e7067d063f232c8e297112590123be886667a4dc004263beea3288ed366f4d4bb7b22b0186ef431c3a11c0a2,0x12f0078ddc47797654226da7fbdad4b355f3a706d959fc19f069e1842bf5eaed9830abd52e391dd20710007e50167ec),None);
  ((0x237b42db1bbafacc2fb5402f331694f80c2e761ebda2187a4619ad66b3aa9df862fc68fd40c66ba376a5599243e47062,(-0x15b6eca9fa02482a79b07cf7851047e45f20188eb9048cdbb1ebd709d4e764aa17efe0b2ad4cf87c067737b3577727ac0),0x4eaefa139977c15b37cc32423006a7d539eb8c22f580d42183e5f1add2acef6af30169d35cf9ff9b4d51756e374dd38,(-0x47da0b82a5c2c2669d4b03d857e78bd29d835a5982e31c45633e821a74977e25ce397cf506b637ad5e2f43dfdb31a0)),None);
  ((0x7e8f2f9aaadc11b13f40398847e13003ea2608cd239d8e495c4af7cac7766fe714899421695e0970b6683f22f78196d9,(-0xd1d2e031d2422f2cdd9cc5a7cf8487fe9224f7e2e6368b44cf2616fff9aa9c9b163a92d42b7512b096c525652e857ca7),0x3e9142f277d5ab750f954589ed46431d99332f145d276a52f44a267dddb2e991161e67609b857cbcea8ead1dc69a7e52,0x3921bf2b6abf8ab1026ee382745de5a777fdc552fbf63b1d7eeaceaaa4f54cbda39d025573af6960246aad6eb892fb95),Some (true,(0xbc3d61347c4346e3468862443f886dc71b020df849d2b492f991bd9ede3789543f39e0c32d64310fb619a881b4bdafce,0x4c476bbdc3cd66d6d125cf50a6ecc5e273c0bb20c7c79ca2060d19bdd2a0f0ae0c1d1e04e691dfac7fa6bf3485da8de8,0x8a6a357c8e6ed91b4b4633756ea26b0e3f7b40c95d849ec03e6a0fb9f40160301d9050ffe4cc3da3da009ac998cebae1,(-0x240ab912f76999279c1406dd485b4a8f60a99f00e67b6fd1497abd03c6636d975fcc65d497f1f3ce2422b8ddf4081b1d))));
  ((0x1f6b8e8f0d9cef7f843eeb252fefb916bbbb97c23d4a075652a1b6a888d38cc593703912e9bc930c9eade84c796d19e4,(-0x5efb57712bafd25051c77d9af1f8d55d442ee044a521b3c232503078cbcc3df48a2ccf6bfb120b630ff1a493162c19b8),0x3db39b72044663b665e213ed4c0fef40b9cd28de4cddc2ef62732b3ed680607945fb3e1dab3daec008c89f4923d274e,0x9a577be7cf60afc9eaa1b46228b17bcb3d91836a59303e584ca382614cc60c5717de26d358ca8d53fcb7fabcda56625),None);
  ((0x565648564849b7c649c8132a81ea880f7c1184cadfc527917a5d50f48d4ea24da12b5dc91e8fb05f5f4fd785a97741fa,0x4d6118a7fbefcdaa6046023da34f72f04af775967cf1a431abad9284766b4e31798f1ea8889a703254cba0984fbfdac5,0x1d1e15aea6fabebed01c8ea169915c962159684382ff73a3833c4cb0f08de36e0210c2a6e09e69b896f46d9898afdf63,(-0x3d0fb7ee52883dd9d0dc4c40cdae2f87cbf1724e7f7c4e23843f8d9adf1962a2bb8c471972b5eca568c77409574b4633)),None);
  ((0xb4bc3f70d280221e12f6e36c7b661c5dcbcc835eeb96e53483804da8f59cac330f6ed78c0d126ecfdd38870b2aeede3e,(-0xedaaf0bcf0afd0b95d05e4582f10d21e38c57d21d3d30c2725b1edb423b9b35d7d34b537edf23291ec1ae034d0c8baac),0x7f9943a3e572158054d62a302a8f3e193a469a6ed5d1dc293c071e29c15c983b9d91919a1a979b1c1d43390d378d7bf9,0x35f68f2c4ab88953f25fbfd22be73036541c9aee193de1a6be2450ca265b73fec4ab469fd4f61854fe253636f99fb204),None);
  ((0x3a3beeb55b0d7c5000910d7b591bbc951012faeaab3f6ffd93601b4e1d3abd096e5a403af533e84624e51a8b45333810,(-0xe00eb176a24a5b94bb823abd355eb83f19f744e250c5c235a5456ce326dc181864f121b89918e953e2bf382b64c02100),0xd3f3632136fca5281bb1e3d5a4ed635fb74d99bfa2eed3093ccd865cbafaf99152cf723b983d6955ae35aa4cf9a3e3e,0xb87f15615298f25cccf1c118d70956827c0da0ba9297d50ada08e3a813faa3b460d2046679e7daa0dea2f9cdf7208b2),None);
  ((0x1ba7008eced7804b5f73366d02836cb6ac4a68dfc20324a3807f8009c8e3d1b005c471c9d80db57c0ec28d4cee7e1ad,(-0x5fda12a8411986e8bac5171a00cc437d614738f1208b15330509a7fa20cdba34daa915baa655207c7de7bd7b03cc7169),0x2fca70fd9f3a1e366aab14bf11496164b246e33809d9f64fc435034dcf2acc307c1f89bde2342146545c394709758,0x58c758cd3fac8a97b8b1e0166748639de23d6c97893a9955a362e0520525481e08a6e407c39fab4bb17cb9c6dee4cd),Some (true,(0xbc0d18501f9e6c1a6ee974ea267f4847b28d60a4a342c9fec5f4fce08f1a10ae397509b8b5ecd4f6aaccacf2f1bfa385,0x600ce105da0d6217810cb1ca0d0d078157d58f68b04202be518c6f872345b1f4f7196307f3dd982b80e7c3bec467b0f1,0x8a233c6128e303df48c66cf6e54b97734b1b84a0c84842f8ef33db3bbe88a65658cbd5119e2ebcf29b651dafd38581ec,(-0x4152f98ae555cec3106dc58787af6e4c05ed8c356b7f554fa20b5180c03a052feefd72d09922cac0ba61702cdd68062f))));
  ((0xaed1f4d45bc7d0f072011c584564598ba15a6b5a3a9fd7502ed146fa685f9988fb339546d9247d33188e224ed8fa2d8b,0x3038b9e6055e50b8e83bf02302795475f7213a94d9a1d23763c4570462b52af844bfd14a1a8033f8731c5996c28c3b00,0x7762150259a6fb670db7ba68a7ba9106d3b5a79b0e8215eda9de397b7026657b10b877a94fde82b38ec669218e22b1d1,(-0x354741a1e7c2336248ca01b99f6b1677aef02e72c8da4a9682b9ed252c9339424112d1baca041d201a31519737c10188)),None);
  ((0xb9de70106df524e05c98ada86b6346c9a2a2d77a89a12315a003c8ab284dfd129fbd6d842062a7329259d4e6150630c6,(-0x17c1e75991b06b58bd2829ad3562e6ec8bb0d202ff06dfc42aee3cdffd735c49cf986e577ef4da863665f7cc9c27f37a7),0x86f33f3e4c7965bca918dd026ff3ee4d6a74287c6b683e6bca4c3f24598cefe92699eb2295fb85e119b111fa77563579,(-0x1c94cadeb7633744d77e4940757999d889afacf90d636cba35c71d20ff7dedd40205217c359da38de760a881a1af62b2)),Some (true,(0xf2ffc42b1ca8cc4912b9ee76c9eaadbb9481d4f72cef9c9f46a2faf56fcd4d838491ec43a0aa1ce296b70826ef16dfeb,(-0x47b7f0faf603eef80335f9c937fa4dd9f8c06f1a3061ca6664efa61d777956c792ac8786474e90018dda6d7f7537511b),0xe6a88e69e66445a63db4b6776507bdfaeadf41d9bcb7d822f38458c2b165891df8d174803bf9276d3506babecaceb2c1,0x3d37275fc6c06947ce27786f9ef3bdecaf1b46f7782cbf4616d10c37d5da3abec8aba29bb007cd0fd5a1d14fb212bd23)));
  ((0x328d7691f04f0d7d16b93e09dedfe17249bef10c2658847049667b463e43b84a43919c02b5e450092ef76c3316a69362,(-0x16ca241b7767c7e7f519544e197fc6fb92d495402ca7caa57a3c928ead5e3addc33e61e648fc720e544e27cb93d1ddb63),0x9fb907cd58c7514b43c4ea4937da368a959d9d014d3c3ed1be85e947c24d88f9b753f49204b969546abb2403e872558,0x7c67d9b28ba2cd9e16470c0c9244ccf6aa9d15271e4f0574f7598ed9c54374115cee6e91fe0a9474d1f316838f51fb5),None);
  ((0xe4c1905f53d42e28c3766d65b56a2fa329571cfcf78bafe07a607b1eacb01587a2f0f57ecaecf84b3d88776c8fd003a5,0x80533818ead2aa837314c1036b0325921b326f43b7857c43f251d4f03b7e351e054cf5568308c03328ddf74a6a8a4791,0xcc695b84ce79b9f43c7d0f5f560d805bedb61bc685dd6e6bbd6eac4d2c28d6139e67978ac7ddcb3e8f2bbee49f4da5dc,0x5ec44e183a8a3d4e125fd288a3af69adc81df44ce264a0ae0217d3c4b66d5316907ecdae2a83afa5498a5d1d0cdb381),None);
  ((0x4e1b2f9467bbd9920cc1bfdbfd14996d044a884ad9033ed9b56d18cfd0395cc49c4316f53d697921e4ee326c7e1e60fc,(-0xb2e3c7dfc1760332a4662784d3f7aa4795a772c94956245f653d7292dd0747db955d7622ebc63c6a3e113db22e117f88),0x17d493e1815c2e53f9b4a64185a4058551b2968d9fca6b85e883b810a1d75be0f4454b1603b0c822bdb73654bcaa8b43,0x25451b94e6c8f6fd4d37bc335e846010a691908ccd98e895514e0ae5533afb9c362bd581d285f4fef8cce239fea7db7b),None);
  ((0xa68b326de1ada1ca72e0e9f95cfe5201a2d2f276e3087b702f7c4023e9545f0e9c00164e29c60bfab41a645908702ee4,0xf64a185990b1b4bcc73598e877309027a4390e22d9a537878dad386e4f663106f9aad46a3e71e8a612cb66db25078fe8,0x6c58d1164def5bb206d5f71d18205910aad392e145dbea311a28ae1720b8a896b6657aa06bd7784fc4923766452a3ff6,(-0x3b5ed45bbecafe69f0eabb139578d400aa05584a083615a556b157c0bc90fd73bfc2b47d02c756cc66a863f9a081dacb)),Some (true,(0x207008a1361f40c945e58699923c90c4746925c1bcaf28257770971e1d3a4235223961f61290604807d9e4925d9853c3,0x8577996aa3671fda174c0b9f4a157a470528b58670db6c50859aeeadc2dc0924b090ffa6980a4642bce580b3206802f,0x41c332fdae1a4721463cf2a18ad030e7ded2a2f31d6007b73b0096de59256ff25d227bf8a36c919da78218af300660c,(-0x164604ddafe4cadabb191d27d18561486ffe4eb3ea08ec6c8eafb0b4d26c963222ea90df5e36d8909b1238d9ef2fde6))));
  ((0x6ac530cea56df6474b02d9052e54b445260248474d7b85a35aaf933073a9c0917085e30462409b9010d7b338047c1e8b,0x36c085cadf70876ac5dd7b6326f95c37d0a1dcba7827e0217db1c06d63208b3fe2c2798533eb365e9d6ae81a2e838749,0x2c87e44f4857d007f811d3aba2a34d8eb09a16869934f0b4aeda63451a97a23457d013a7c87dc24b7c41a60d6424e886,0x28dff5776e82756b62faab846b57c9ef5083ec87b5b49037b62a19b9ebbb5896ac0836c9b14cde02eb5d303f1aedf6f8),None);
  ((0x384668719a649e183d79ef981c4193e30e6002846898138eb88019621bfda7caf5d22b3bdc3e95bb7eaaee86ef65b36f,0x38d87e4b6a14925a9473fe811f263e027921601362cada88c1786f3a713e218d41a3ef9c32da211667532a69934cb02,0xc5ee10efc48f40c7a8b709bfa65e982bab7e68dd1ff9d8f87ec16ea0158eb69a8e1ecb2f6c5c0c387192d25367ef004,(-0xeff518b999f52bd593831baa6d149839f0632ea4379865267392669a813561ffc8825b22bd4e0f23240bd29ecfa8efc)),Some (true,(0x5ead6db22e5ebb0b5fceb19ad046891425418f21de0ccb5bc69131251736148710940d6a3a5c527c741e9f0b22972ba8,0x1f4c445e609dd6321643cc0e29f61cfb263a45f9af5f2f6863ba21f973ca431f546818a6dc175949ac3b60ed803e2fd5,0x2303d20c4be174e657254176f6505ebd2b0912ce075a83728a2d7c847cf3f101902b29d923e94a0db1f326545112f2ed,(-0x13c039b59e864a5a877aa00313841dfe46028885a6dc7bc367b233bafba0c5e61d794bfcb0c14f86aab7912a124ec881))));
  ((0xc16435b4950e1336d0bf3e22c470c91712432b8dd432debd5df8b9263ddba71f7ccb7db5b00cfdc289b2889818c3dffa,0x870c396c17a6e5e839b8610c221ffe2ead3e39e4f08ddcfe51fa72148bb1610f67259e251c2bb64dd849005687639f40,0x921840344917f111701c8bc19e73ef8538055c3c1ca42a5580edd2760fb540180705c86ce84da0d77d3eccb44bf7fab3,0x36d0baf90634d00657cff0a5929b03d8a4d0453dbf475b646df073ec7c32d3268bc1b44c10739b362b9fa6aebe11fd70),None);
  ((0x68ac9367c58f9592082dd2e24abc12bd65a34e007be7a2ed74531aad6e2152814230885387cb3f059bd42b93cc4a9c85,(-0x27a393520e2d3a5a63100deefa71ea805e30ef676ba020f01ea37fa7bcfdf144fb0a0e8d16e10b03f0d4a48855a45760),0x2accac1ab8d6796b1aa6968da2fbca73bdc9a7651a9cd31886f920c81abf3d1f0cc34197519bc0c9effae5e2b79f8d6e,(-0xb50b78b730e5a431995df28c5f0382c1807769efc9da42c51fa86b0c3285040be06417b699125c640d110de2ee11c52)),Some (false,(0x7c7c9ad20e577fa4a51076bfb151c22dc06dffd30b5abb69987401fde707d2affadc2a806540350c4af42c5b4bcc356,0x2502aa8701980ef3629971077750d50006389c08d77f9a373b3d4a3c9cb1b70e65801c51a2a2989c0576d702b772ea9,0x3c88f2a1d7040e07f5550b915ef732fda186a173c8e25d2efd5f569f627943549cfe3aaed2f35724a1e225904e2a59,0x15b0f4c3064ea0479f397cbf59f92d88c8a4bcddf5ec1984b03ef2977cd5ffa895e791e1af594c0b2055d3ee181018)));
  ((0x1ba4a1b7a30bddc2768e9b2d435dd58d9d4f5d1c8ed81bbd7336c1c841504a74000db9dc43d1eb0d64b97a98b236b96f,(-0x525968f10120d716d5a4052ac0c0e9690450d64d2d10326f370525d518b1bf325edd69843bd111c7c5d74046ad712b94),0x2fc23fc55d5e6ca95e7bd89af0e02feec082113191b7b6b35bd84f364362169bc83a9b2562ae08197e1d7d0ca6982c9,0x1467b1e51518547a3ad2b2fd6237cc19e5d899f973bd8c4335cbe278581aebed68b07dbc4587f2f0dee467f6b9d4ee),None);
  ((0xbb5ec85118334ffe3b965b5b45221c0448bf40ed56f8aed0a99cc98a046707bfaa8fa5f8e67c771225c7a4b61e8bcbb8,0xd847e1df221db6b851424bf917a7687b52aedde78005c3bf4faea9c60224b59f08db50e9cee328e3f1293b0585d23b2d,0x89239bbe31a78c0ca980f127b561da0c7cbb76babf94f274df66a79dbbfe66909446324d4f0cad2b1c8c21bc9586eaa2,(-0x3c00b32e87d75f071a717109950f02bd0061c2ad284833275975a1eeb6db7e3482a74d88e217fe7103b6597babaf1549)),None);
  ((0xd9f3489078a57a6daf64b85a1c4e94a8980f27e92f5c48682489dc3332fe0ba1de90fe34aab1bd59dd807d6e417659a0,(-0x1101fd1dcc15fe7418fd2cd8dbee5b34176df923761e2df46f478202b7156d23ebdb3df42631eb803e556e6434851d337),0xb98e5837c35f29196776b58a98704955083855af1cd3236ab5d29b773dfb0fe58cb3ba02e468fca37b7f7d5f0c83e015,0x8bf3cb5a0eae9a52c884475a749ab293c8f0cc1701e6b4c2f6b29feb0299772be648a5c27b9fec22b550324d792c42e),None);
  ((0xe47cf05a0935e1424cde219f40cffc1903bdea2a50e7ec8f9fac54478f90d596353d930bdeeef3d95dcd910f243ac3d5,0x5e754ef0e116b3134f5829d3f390e94817ee5a94894864d8b853b067517afd2ff0d65580e3f309a206f6efd17b2d82c4,0xcbeec91a1949d65fd1b9ab007e048ea9a1097248fdceb043b84bb59efaa5406c495ab823cbbe2e96a8ddff2d84e62152,0x6e35f673a06e70a6163b4d93dae9aa467aaa5c0deebb502bd9d83bed93cc2406a3e25c4d639d198058a3d1b02568eeff),Some (true,(0x54765864460d25e930dfc300eb7c5ba3e6405a72233595ba2ac3770832f38904714b407b13a62b3e6b7b50b77b47ce90,0x2b5b3ee15ebb07c796eabfd0bb44827a64bf13c48069e153fa5b110520aed837f572b787d979ee185e3b0342571b910f,0x1bdde0b768ee4c6fd28d0770ca4a3f4e803e9a399ca8d1b54cbbafe1bacd7a37bab72147e829ec4119baa91a769a561e,0x96d3594e667497ff6f4cf3eca855d1badbf6a7f24096345bf83c14380229a7653a55781cf9e336f7f6d29a18c6a0269)));
  ((0x3a286f939a58240a08c3732187da88120fab5511745b9292d0bbf9f4b82e8a02839f1282393ebef24fd0ff4e177fe2a1,0x42b5036990db6b73996a28963addb3419ff8959ef08adc20adcdc063b4f7792fa77523593f31b433cb239414ce930539,0xd3658f1f0b180d2dca38e1398dac603622a019d1cad11cf5537e023b7178321ed7b6dacff32a833ecfc3bf960ca42dd,(-0x151f6a6b4f0cab66505bb888243b1d92694e3a9cd4b29931239073b13bc93bed3399e85a2c656c420de99c5e1fea8b65)),None);
  ((0x6b8bf85798e97c5f1b85509a781cc9ac127ca70c0914752177c1b3e209540c969c90bbc16cf79c4553f3d23db6ebb94e,(-0x70643d891d3c457ca573ec801719234147430fbaf56b14a46fb1ff4c65d48aa599f3bccdd514dd070c57d32307be3a9b),0x2d2e4e20d9dd11c23b4a3ac23b293ff1006c6d19742ba786660f9332d1dec94037d861f090406c631a46480f3b930061,(-0x20d583c0166afb4c2a0b37cedfae9e2e3cec3d679e45e4f125eac524e99c5e06d773720e9127e423484a5f23c76199e9)),Some (true,(0x2387cc1b983f36aa61376763ca9c823d1ca2665660baebac70b0fa44e2d2644d3257ad91020ebd0bc00fffc58420a526,(-0x18c43d17ea7ee8cec05f87990d60880fad3ac5710f0d079eef7ad41f6589376ea6dcee7500534fc973d4c0b0e1c07ba),0x4ee69d87377d93c7547e21b6a174d1844b37fd56bf9328e0e205d50678be4df30677a6fc41f190e7d90c4e2954aeead,0xbc9ae74a6762861276c27b24127188cd987e913cac2eb295193737db463b4776ea2b4724286aaf602e93477d1906ca1)));
  ((0x65d606337259de7a07d0dc6fb6b0da14a82c6e5c7f90ff62cd2215146001dc997ed368a91d18e4f08c7c8d3b88988d5b,(-0x517d8f0e3c38f0caa8e88ca0ec1a76b415d021b1751ee7f3d274b94b3283ce16faecaeafc45dd9226143fbfbf3b50b62),0x288293d2f6648b7f378065ceb9a1601a71ef90768874ed606fcdf5bbd7b89b5fc1698c38b1e1e04dd36e61be7d70a49d,0x50c039661c07b3c93f6e00262c6bf9bb913a9c4709cfe2393abcb72048790cb05892a6b6f41d9ac8d8e2fa8e2988182),None);
  ((0x752a555f2487547d38cb3830e4031df8c597bc068f961c899ce9d9d690394faa7f82784120e2a12bbd253272232aa834,0x2508532f3c53c0258e5d60a691525140392a99c206a7aaa1dc064ec7dc62896e96fcc51ea79415a724c03e80c31ee5fd,0x359fb909171401402ec297ffaa874ec76a14d480f32a3c3c202ac53b46bb4cbcfa6e6d5bf1ff26cdb4cd5c040bf47adb,(-0x1ca6a9c68a542fcff7c19c7d012ee95d900b37db57267c8a754bd56ccbc5a05b00d4c70c4828d650af49733397af377f)),None);
  ((0x372ec0ab1d4e1971c5caa21c8f5b7ad5ae348aa5f3f4ac8805e3717fbe52eb0e8570926e9cbf8f89020f07ca71ca20af,(-0xc021f06cb7a863700b66013b7c565e1120ccadbfec385c9b1fc3dc0785bd8e14a9aa55538b7eceb09851c00e1330691a),0xbe51f535517355557bb96c00268183fbd5c11e88d6c61d5ae05b2d7eb8219db2dfd8b7243403d28fc3c4cd8e4dc7ed6,(-0x6a3752b241bd54ec2891aaf892ff7787f9421c10133731eae29de732a1590fae31802ed73299c1856b642f4cba32ab6)),None);
  ((0x5b5d8856b2f0517f9efc4c2b3a8d7a34f208ed1012b8b6a2d6331c9b49286c041f00e9558342d44691d961da66953956,(-0xf42d67a5344ec91a486017c2a5bfceb0587b981bad5d2d77c377b811438bf4bc50eaac486c7ebd873805dac1ed76170c),0x209ba119fad11807fee24f0f57cd3023cf2e6b959077de489c4577d4c2724574c55b72a9a85bd206e4a4787af08ce675,0x3a9b77a0c2bc3ee6063ada29e4a8ddaf3e5ca6f774cf576ae26f03143cf71448a826b3ed9931fe5f537bee9975e7976),None);
  ((0xbe6accd2e978e9b3199becb65061ccf59acd11dbf6f670418942bfe063f9f0878780a22e46a73b9871322a9c98797710,(-0x12d068147fe1e16a8ed1997b6f0192b08ee47ba483e49853ac01d18d03bbfa58957a02aa48f41207ec327b13963a3ef30),0x8da2b4975519a4e3f616d5a91d3c016e7d06653fdee565b3f821e8d14de2a836d88ef3f7572da23c9a56841552727acd,0x6ae5495e6c577a67d2bc204509ac4d5e2dfd8f0b0627b30ee0369914b62bde08ebe0bb1ec6517765af43c0c0b2ffd777),Some (false,(0x1e9dda954954883cf03fdf5d7c0e69291054fdc4354a6e5ad789f0d813a1e93aece08b31bfcbaf1fd8d1615d13efac,0x1196000f25a454e33630f9076ba8abef49f78ebf2b238ac5dad832783d1d7f2e75cdae092947da9d51fcc718da7119,0x3a96090d2ee598fcc7d586ac605a980d2e7c925e28a91f511c807785aef95c235682c94238a5a78671b2faa570c,(-0xc75887894cd357137393af25ec8cb5f5e400f464f2c9f232578a02ad9f882aa7bd67525b6bb8ef952f9834eca48a6))));
  ((0x9c17fc656a0e9da7ba99610d2a5644845544b401ebd9a2a299b9e1144cd1b358dcec81a29421b1cb30bc26c068efd67,(-0xb3d88ed2e036dd8409a3e6483229108d790f93abfe3c98f569740512f73ee4355167f16627724fcb0e363b34026bbf97),0x5f2d3ddaec52afbe61692ef33605d4a97853ba39a41e506da835443fbd379f44060714ad3168ab54c101d9024ea5ad,(-0x3d14c0338d6bb79d903bfc498a3c1342e7082444bfc9807d31e4d3022f56f1b974272321e184c3336ff86f7bdfec825)),None);
  ((0x5305342ce3978ba72f7a2a002d291b3141fc44018dc94d7ffb6e09b51d1276221b760253a376b7cec6a5595b631a4c7f,(-0x22bf58ee7a70742419c1bcac84c57302b70d81aa4f44144ae45b43311ccb9803167db6097ec71e3cbdf1ea8cda7734f29),0x1aec5ff02ff76cce747b1a243df490fcb9fcc365f246765b130ba4de2316af6349b97a60fd60c797b88b30d64f02b62d,0x2d95dcc53e21fa81cfbeb97bf75180b51eed92238bf70d56243d003eaf0214a9502f734bd781d9d7baf891b7bdeb778b),Some (true,(0x9724d7dc57625455669ca80501a0c46dc83797b698b5b06bd03265d4abafb1627a9f795b56909372f6c536a738cedadc,0x31280c65f3995da2038277c338094af776721f49f95dde5b8668e51cd48c7f7a6e377f2d8ae94641ff0e6d2404487578,0x593c7bf35b126b91ef8e0a7f61b6803fbdb07e585d5cfa3d1c100a052f88d4861cf5c12797bd3e9c8f2bad716d278eaa,(-0x2282f6b2cd8020c4a0f6051c20bd23f7426f377704fc4c92a538760bfe8acfa645eb5e8dec7ecb80ac87859180bf4188))));
  ((0x48cecf4cc71120f5562fc27973fd7e90d5f0ee241008317edafd85537c1f8b916b66f5b3b5292ba3d05f1f5c8cd738fa,(-0xf80369b8708f1cee00a0c7d753636333670f79e38f7ff45b1dbf186e991e08f2794c446b33137cb77495d27e019c6850),0x14b4fbad7767430f8b9587b086631834a6237128282ec8d80b9699e8af72bf71e0a87228044c9441125ddbce37709bb9,(-0x97f107bec911f85dd56fb6248251ffe176f129b418494c07a82992baf24a178f51c879453ad3fa0620c6b96b685e8be)),None);
  ((0x8c7f978313a4574ae70357bb0e51aef9d973cc066dcb4e85127c1f0cc4d19686f32fb733152060de8331a067ba82fe38,(-0xa80055343959ca90185059240c282651f474beee9c359d2241a741f64deebf2307108f1ed4bbbe8015afdd57c2083078),0x4d1bcd4f0b3520d183aa5ee916327afeb59197267080e4b2e2752c866d60168133c2e73e7873d6e57bb652803e039b66,0x2312e91d14baeb7dcb802299381288bad10d7cfe9cdd83268885d2bdf8c319c7adae1f5c722daf65a54ac2eddef5aae4),Some (false,(0xc7ac1f0cf08273fcdc983aab0677133eb751b547136c7678686acbbdefc116ff9cb3d2a9a7e2d20332b8309d19fee12a,0x2b264e0603be41b57afab846d32f922b486fb37fd437df561af6c2ab2ecf2a74cf3eb20086e15e0576bacf6efcabba03,0x9bbd0bffdb122286010410da65535c16df6b58cb960ed6046ad8823fb0cdaba6c20a59c314989d1b496eb128869ca475,0x32d13c6fa8a60775c7f77e69a54a4ac9a08ab5bf3d16e57e1f0fc3e599f2af1f1377b5b341dd245d3754cb84f20d9836)));
  ((0xc2dd946c1d8a33ceefc9827fe7fe096f8ad9cf2ca41baa3c8778b048ed82844cd5b39c12fd338106e64a6a4972d535c3,0x141940000bcf3a7e78a57706d7a53c8c412b30c025db0db195f343bb9b0d67442b40dbdc429fe2b05424ed2e6a7edd841,0x945494bd757da6f3d2a301e94547dab591a5514f63fd27daeeb0aa90d12a56336abd0760dbff2596016e0ad3d7c9a58e,(-0x1e19f4ff6a3f5207d4cd3c39f57ce7d25944e7f4ef49e5eab1d8823d903eebfa1400fc6cda56b5eb7eb9ff98761a7727)),None);
  ((0xf167c75e500c4e3483f36fea0cdc36bd4f119f4d75b318c3a9f1d3c28b096798fe5eeac4d22312279798d6f294a1d23a,0xd6142d618cfdf48d5763c03c6cfdbb7734e211b2020697de0236f1590e60d993ce7c6bf68a689c8562ee91b7f76eaf70,0xe3a48f719bdf5857d2594bc858999817471d4bdf8cf1f2238d831a5c6de90550f82953a8050caf20e803e54e8c4a6e78,0x3d751a8b7699edfe8e03271460e6213972040bf26a4b47882c2a68bef43885898e14712e958f8babc0f7c7f2f32efcef),Some (true,(0x495d4298c33612a59cff5321e2ac3f8791e433e96b125c0c5565cb91b67762045b7df999ba7a67826859bb465d06fd40,0x29debf2eb530e0f1c04849163ccb4e31ddea40ddf5b7387e3366213d51635b77f01f584c1e115c5482d1ff818bdc5a69,0x150651f493a5cbbc468ca45dfc5c0813d1b9a0998598eae7e22e482b69386b01991f311eca7085237d40a5be0bcb89b5,(-0x1189afae454189322c931ebe0276da55c29b0bb027916ada7ce9c066f065a5b83e25e08f4629f773348135f02f497c4c))));
  ((0xd8c1d56cf286b60872a9ba624e482100d1a02be3ac580ccb473ee03759b6c2f3fd2b7639e46bab111d082b75de48e230,0xf089aee46951336e55ddf11d427d396c8f7e48ec9d5da6764da48e1ed00b3aa5cec4f7e53384c991c9161a0070fd1dd,0xb787aaeb59777c3e6c91eb6b26c18b0ae6a6ecfa80207024a3cfdd20f32b6792ad76e18e775d40c0eefa31525df77bbf,(-0x7b55d3910800ca9b0d9bbf3d2d87359aea838210933e9b36e80b4c0637ffd7efb3ae6ce9e59a519f5f514c91d8e0d9c7)),None);
  ((0xc788b0219825a4a06ffc4d8ffec0779763ebd797a56738a5ae6b1f0abff4b3fc6eb18228e0d09bc767f9fa08ff185a5b,(-0xf714578ee8599bdd5847f5d7c8b36697341efb11b0930a1bb62b6e0e8bf846b51247619796c223a0b56f0e96e6d33e68),0x9b85cacfd76a638caf0f010795f9d2e59a243a25eba71a96ec28dbbb8f2b1831f14d42ab8c7839490929f7c027226375,0x543ba30c9ca11e3f4c767776b412ca8d828a9cc4c947b15b08bb419f08baafed410316bde1ee2fa2d1885193dfe7707d),None);
  ((0xcce8f850daf22b2b9c750560785c0e12328310a28d5852a206a7994836430c866661f0285d57430e13bdb44090961730,0xd89b3e26fd3aec82937e2268b4c4036d0c2c33f7a747f138d774b189409395fb105b20de1987b60b4cac34c18f3a7abd,0xa4041fc3e05b8d7a86a6e5abee6deb27cc65de332b1af8c9e3a032069f31f9d6f8f129a338a63023ab65833de10cc12c,(-0x4d4ef7f0bae2f82dfa333212c8d03e89b8e3f8a06ed3a5fdc3d5d8b33430980db32d387675fa281282b6ac00f8a2eefe)),Some (true,(0x6ee617363ef53fed64e460196cb4c8d96c707c633f995bfc3a1b7a88cbf6550f149aa3a69063a6cf038720081e6f9798,(-0x15583d151f482cbb8a1042e40438415f03f1da2f029e09ffafb1d83a3a5cebeeaff94b3474eed512e706c4e6007ed9f4),0x300a8ac055aeae6d91b4e32489f03d2eb7769eeff35d46685cc3b329d36920fffdb4f87ebb391c5db8a92b4e3e1a1e12,0x51d3a4d9cc0ced4cc039850c011928a32f828f7e49ac0d86fe961ccad4f120bfee578bac5716b66f97076d080aab58b8)));
  ((0x5f2a2366a93d2134edb739f890791ae0f9da3c38715651a959cc4a5e3097196cc4b6683e409f91f935ea10dc827e635f,0x2c2b4bb1142f5a5bff60231a12973f5c95ae18bb408be95c7e5717f8137750048bb5137b1a43983dc2cb18542b8c3fe8,0x23604d35d43022263178b0c3c209575a847009ce5a3c38d08a757b07ee424f3d7c7b03971c65dadba9f1388c275c52d8,(-0x3c024a9521cccb61a287cff38c6019fcc6ad91b423503864f7f4085442f2db02c3d315bab00b0cc0769d2191e6a19bee)),None);
  ((0x4d213631ec0a02b9724ba807ca77f7c18b5e18cc304f5722c65091ff19a291f733d5a5bbb277780c82bccccbd0830345,(-0x1ab7316bbcf9ca44f9a085ac6151d13cfb731fa346fbce41539fcb557c64ef91aa14d921ec35453d4d1c341cd7a057c3c),0x173cfee90c55f988b12eb735cee7d2357d187cabceb503545c354c3c3607e1919145006ea75f730d23f822d4d1128251,0x11b5f80c656e1b5a818cac27f8de9d2691915a7d54a29ca7884356413c760ba0af84268f92b00f6fe0fcc1051ce7d3fb),Some (true,(0x8c24b1968ef87044df9537b23942bd90519a0c2f2ed10350b7b3eb80a46ba6650560351655183f42e407dc4e3e0cfe08,0x143d726ee33098438c7de452a7d3bb04dd389ad686741a7dc56b13ffa85d41ffb8490aeb0230b6fef30f7e8b06145f04,0x4cb8277f19e97aea4e25726b1159e3344a4af90442a8471fa63c139759b4b561351f449696a3a306ce3d84449e42a455,0x33755e492b94cce504fb876db3b8dce28a3a6c2b0a95060642af7eacf93cc480be4fa98a979b2592d08cefd5fd8535ae)));
  ((0x5ab40a7eef43d29a0ba8756b498d4ba4d11e8f2eaa898d35d7fd56fad973d92e0e8f0f3ee45e59a1a5320fd6c0e321ad,0x2750c88eb112597ef3f526d52ab0551e329d8036498ca09f2833a17a7aa4976a9cdffc97e4969c8fe88794da51a46ec5,0x20231600032a51162ba9e534bd3e7c7be5266c1f96a0fada093adf5b7df88f3788ce64b7ef78626ad5ad0b9bcb682bf9,(-0x1bfedcd7d776fe19307ea7a68ea598099b26b7f7867d195bea0c7e6efd13e7b7e99612dc153c49c68e3973bd4855b21)),None);
  ((0x4ef32b423465cf1c6bd70e3b15f6da55c327982a42ddd03cacd2bd39c02dcb943cef692d53eb7e8e6b855742560fa311,0x1bc632f1dc56902cc73de6a22a061bb7976db1eba8616c1bd96fb7741897a7469d51631dea692a802a19d552734ae07,0x185915577eecd235c477a2737f04be8dcb65c427fcf30edbced21e2a3f2b9adc5478cc7af3cd408c2ce5beb17d787e71,(-0x232d5138477e956654090d725de7fe5847a402bb43428e28759d205b9ef552288da29b8d1d49bf8ec31bda72509246f7)),Some (true,(0x246dea4c58566e32400c2aeda2a5409f652846d1672dd42e82d871b5fdfcc8eb492544f9907944a9b12845214b44f5f0,0x1b40b8fabcb32942e527e8173674f18f8273e8d2fc1d9b481d1f50ec272b33a9436a36594d02a18f3a3767e796c49a0,0x52f1916d44b30da8c0eca4c6f0983ec499731e2503e345d03c4e63793190db358dda6b863c78c18a3a6c679e3e7b339,(-0x9fc143ea6409766d82da4b6cd78033482ac77eff2c845debaca9e61393163efa4bf28d678ba288f356f4c5628a05f03))));
  ((0xeef7fa5537816b8419d36455823ab9a358708080038788126c528d805df261123bdb3719da3f3b147441f2ba8e7024d2,(-0x2580859e0fc5be9a1a05bc4894d9295e44e0a41dd404477fa3168622fad873a6ba67627cf305c8651c8cff391c46a94a7),0xdf1205ab78704c6dc6e72a44ece0af8a55d48d605d5ab0c92d82885ae17877c9123825260177cecf30524e00dfb76486,(-0x1603c7c48a160f438fda6130bc9b71fe9cc9fa5bcd5517d4e9b86bd1b83447c638df7d5a2887d2b43f5e5e470f54ed23)),None);
  ((0xee40965bd2d8ea40ec70ff9fb6c2174c34e2651f97f44099ab831740226b33db2f40605357f69d6a03e5a1b0290d72fc,(-0x1471c582822bf3b62e26aa48c5912c3b811dc4f623e5667dae1c42c1724309427b555d03ce843ad9d0621039910a0a197),0xddbc27de42447c0b9e7b8b27f3644cdbc5446c45e4c006052deff99b2ebea597d12a44e271477fa4dae6bb00c5de773a,0x92940ce317854917d35b25e0687cb166f5c7efd1bf77641ade044de38434ab50a40151d75f3c59b0c642f3f3b812aa48),Some (true,(0x21b5a18d23db27def29e69f921a3ea1e0144c78430b69bf7cdf18ab9b6bc8ff897f119fa383eaab7ee618f38a159e46,0x9f866f83b479b8c9445e21bc458275b1e815149037109e5824ae96100bb461ad1e55ab09347e91e95c9cd02d3a8dc6,0x47054843ac609180865ec9accc208fd6a3720872a7feafb152de55a402ffc2ad906b91d50ab31f2ee3b5db3d8b3ed,(-0x3eb498d702cf5cb3cf19c769aabcb4396c3fcbcf654a990dcd310a8946160bc23371f6da35e10a248311ba733d2aac))));
  ((0xef4101beec0c0dfbb38b308a6b88c10be39d13fd51945f305bb8e6de202f0d8a08b3c0648843b742d58eb2e2c7191e37,(-0x879d77b8165dbf97bef96aa004ca664d9bb3c96e2d9a93e9a9f1fca5752d097948b99e6ae0e7a3394ea85b67c1d8dffb),0xdf9a71c45fb56c7666b604b0177614766292ef2e54bb0b63c33aa90a95ea69953be3fb77432b8348c3e46e9eeecb096c,0x438fa6b7e4e8a58aa338c3715e7df47b5505b2bca89ccb8192fc140d77df630898f61580cd92f46478462d3ff1eb696e),None);
  ((0x17aefe282d3251726e50d75fde598bf0f15cc1418ceb7c580b937651cdf8d0981feafdeae0bf0921d6652e7622b81684,(-0xc7a704f3188640eaba780b216bb81a90e4902b07f09a24350b41a1ebffbb8a41637cbbf10389a49c0d07fe4bcbfa4b0),0x230e949b3103b0748b3bdc90a510450220703f1be626fb016cdcdc85e210ae15aea8265c2fc7342a93344f2559b82a7,(-0x125ca3a863767a2e916ab75fe2284e3d500e910ac327f453106dd7978f1aee6ba147b7da26bffbe758be8fe6308d16a)),Some (false,(0x3eacdc38d39aa1eba7a480c1ea92add03ea1f1c8fe8eabb8ef305480bf88ca8a354b3c47282761bc995c0b54f9bc2809,0x19e98bc16e6a250b2c2c71856801a9fe3ef81692e2bcff0b186d9b2ec161a1d1a49fa2151dcd962090f1457988bdeafa,0xf582f64304cf686c2b916f8b3c10141dad0eb3dc6c62b066d424d2db487ae83a43d5c96961a3d4948b122d19baf1e7c,(-0x1e0a8f3c571f92afeb0c2306fa099c08b3581fcfecb565bd502c60954f3b26f22a0331cdc4799ad7d5568fa9333fb179))));
  ((0xa8c535fe6a07fb74f5b258ec8bc5d91032a56bf948d2331956fee640423528620149e983c08a10943ead23210a5e56d2,(-0xb1c8fa6dc9a30e18b681344dbd524985496c8bc787d8ccf3b1df01d89467c0fc71d50a19a5a0b3ef061844b870a49810),0x6f436eca101cff10665c3f834d18e34aae6148e8d35a3920f2d3ed5aa253227321c772dbc610d6c983c9baa9160eef25,0x6062ec1f437da6f02035f56bda7bde041f986a05cc3fe5ab2f2feec51b28fad1c7e3f0d7fe34bcc21d94a8dc4c0258d1),None);
  ((0x89654d50e6f67737894da451e04b1bcc520b9b086e4a5716a8bfe6c639560b3212ea1a973490a6bc9131d6e9da84cc52,0x5fffd39ceaf30762cf1d9c9229c38e970d152b17e08b9cea390c585fa39b22da1a4fb2dce2d1313cc31b86f9ff4eb33c,0x49bd94d6b063ce94f0e927f2f103654b60da6392463950ef1d3b49a1b1a2616d85508228720cd39af468b847b1d1a5d1,(-0x66999f5c02abf7c67950dd653da956edf4e821b33bc13d89ca0f167bea58ccb53e03d419baf2e059d3b25a8a65259962)),Some (true,(0x2af9af15db6c89129e7872f1ad795d50305b82437630433eadaeac1dd08f2d8613b46a7cb4847142624193cea48d87a8,(-0xa6119b6554a49a5d1f186295e2405b02fd09501d90c44c6213883117608c383304c230b898c823e399f3c1ef1717ac9),0x736e0f93c4359f8e1809e47603548ca4a20ca4b16c63f57763b620dd3d41b692564f0f0bb5372223d61e474b869665c,0x110b13c234142bc420ded2225239086733bd1ef1ff7216371609a8437c9312e05d07bfa16f8bb387fbb9e46d797a26a3)));
  ((0x96ddf8728010dc04a98774f2040a3fbaeb75eaac28d4aeb8d5d69960644f33ca2c7f710c3b05a7698f26b237fc7f3125,0x64e0873fca875b2e7e8427b051853c86fd148090da767789aed7ebcca54005d089d1668823d770c35b502aefc14b7b35,0x58e8df9d14e2ea4850154aa9dd04b517b90e22dfcf7aebc32a43ab713b15058f938d15191051c2ed8b202bbc33ffc379,(-0x3d08ab9dead2389f61ebd75b9ef9afa0857a04a54dfb87c31b2e7af0d22945b76d1728ba974a9cdba756b9de3ae36ada)),None);
  ((0xef76875e40a8f965233aa5ed00fb8011dd9a100f55263448118548486f0c67d5ff252d8652701ff864749506c7c22be0,(-0x11692e17187dffa72a00bfe241d6a59b9a402fe5a7f07cc57a878c222c0f5835c75588e632e9b1ba6dbcbcf77b791d057),0xdffe87a30f33a8568478b98a11b5c87e9578f2b61e3e12fcd34e71483ebb0c6008aae546f8c8f2e5eb92051a70690676,0x8f60d141b5951cfe44af4b6608f33a69110fabb0557ca0a481b879a778a6ffb93756878605a8b6c2d76160c104bf463e),Some (false,(0xbc3082763753503c2d4aae8b8510deb7dd0fb1fd4fecded9dda27d8255cacedc930c42c6eb8cd231a8f3e76d97ca2bf9,0x41ba200a0fae706e8435cc8e9bd1919f74dccbcb9d3520ba8b6ce654a60cf0cf8a19e885adf0303caa15f1b8e2993de8,0x8a5748ced01363de2356a96ef58269167123e5ad4b6372d19b617d9c76f4be7cacdbab6f6d5cd930f0bfcb1cca364aa5,(-0xf0de6593b32f73596874ff37ba664be07a546cd774176891d92cf5f49d4f59a6d6f43f66219728d589670bb6c499c96))));
  ((0x4780319117455c3abb80c9041164a35b2a0b408da5a39e5ce61fb0b78e205dc43e72171353b50c614a42efb9d48ddf07,(-0x1c021784be01c5f90a8e6c22ac697b02eb39087414dccb02a39b32f8cf725a6019cc379cc8bfa7dfde7fd14dd44c651e),0x13f85bb015989ba8babb6ff66122f84d4e831ad54a03c930ad91aca0adbb7dee11ee38b6f21571776a0b08f359fb5bcf,0x117259f54e08e004e2b4c370ec33520ee4402908981e045d5c27515f8091c19e750aec27555456fed5f088a11d2f76e1),None);
  ((0x25d2e4f3be0a36eee54a5cb86cf66b800c667993883d57d804288a3a66f3bce796a998e63c92a08c02117f2287ce5ed1,0x249c3be5d22f74b158f53f015b707c048e1cdba0a3cf4df08e3a56e6fec22c27c764535d1960020f9090603f3495935f,0x596a3eae195cf37b488a8b421347aacafdcc1a2e59ec28c6a33fe950258ad10343637f442750b41b3cd6ea97a0dbecb,(-0xc11ca0c818f1f282363832a1023b20686b06bb11f259f7a7974c1ab2f71736037892fb4c3230bfded1b4855f064a1)),Some (true,(0x361f765f66ae471548bf7c47e355680ef981690311b48c4fc4ed864578a9c855300ac93ff07e3cb184511e4a407cb934,0x1bb6580cfa13b976d3e0e72ab21d783f681db1046da2b259b5fb9cc4270701470c37df7b91cd01896a8cbb74186b8734,0xb7149ce21287a6839e81ef49ca5e4f8701baed26375e25d744259b5516359980d0a11bab013aeb8771a0c16a1fc44d6,(-0x1c553d38d167815278e07389d7104805b1044fda22177e4a7d9ab4a1f1475172706261fe6f2ded937949b9600caddb30))));
  ((0x1acde692bbc75acd73514f08b1c92a8b7fa941451883777bdfa45dfb8187acd1d32b58e4925e9c59447f7d3b803dca79,(-0x15eac558a84a5cc8f66d0e493326f4cff237258272d9cb5a67d06f1de3a3eac30f4e183adf6f8597da21563f24873ca68),0x2ce7870e4d1393e18c0cbba6ce28a095e3d29815b1624e699f1207f089d5a6f472ae79ddbde3074cecc48e77594e8c2,0x5939230da2f5f5efd0f6483c1157775338f4f2705a2a61ba5c8eabc45f5e245b05e13e2cb1bfcca02725a2fba06d8ea),None);
  ((0x7a0175b23d29b5651cef5c8615f1aca2a6e78b706b27d6931b368e9ea3e91043e504d97c01b408d672c77ef256f54d00,(-0x23520a7bc05913a9cdb8eb18ba26c29218facb07c16314d5d18482d5be56215243d3cc350376185ce9ccc56bb8300ed8),0x3a25643003cca33906c9f25b581b3891a69cca051383fd1946c0d69b08a7943d5e9ef6003d8c0d409e51f77e1b60d873,0x2e45e86963f0b61c59c72feb981908ea6ac50550ec475b1f6c94b1a67ac98d69a1b048fcee7c9d3f8158a94b4a36bb48),None);
  ((0x242486cfb27ed551f0c3d0b3285583a1a53fe5344f0cc4d0dd9038fe34454056eeeeabafd3991aeaeede973c92c93cc5,0x259c9aa120b0e49e879989f4f824670a25f9d8885499a48250104121e7357d927b4d2053283f2d4603206c8ce56df100,0x51a4b209b9bf709f7a62bd2121d38e1e81f19a70500773692f49e9ba6c9acd15f7cd98955f8ccaff530420039cd3a21,(-0xff8aff4812b4f6f28282293550c51a3d95d1ae8ac589e3b4a2bcbb1cd194829d158b64b875e8a131d616ae797a06fa)),None);
  ((0x85b1991c9327a807cbff930cc1323cbd01837df4f707497970d87ecb460e8dcd9ec9ab264c67d0346a6843e69a56670e,0xe28f6e0932f94309a58428a55cddac9db4930f78a3fb1d4fe20b050e9ee2022569047e1da5f3f3705bc7762491c5dea9,0x45d2044cc5fddc8460dc4ade4b00ab085fd2978ccace993e08a55d684985f33f11ced329d026291aef8e4773179a2efb,(-0x82f35e43c491f002f0193967dfb431916e55b6a3835039bbbf189bcbc3fd8692ca307c8956ec4ccc2372f68d35c4bb)),Some (false,(0x249b9d16d63c29d0fe8f50e75213da7d8190ded0b5c12094d8851e2ede7756692f646ea74e3ba8569f99724c3c88a034,0x13ede814557a4f4d273c7982f440ed36eea201ea581e78154942e6b90d85592c24c9848de5b48e5f4f5396751db33f6f,0x53c22c6064d5d6cbb96bc819b7426858d691224f89d5fc68cce823393e92eef9f1e738d90fb15cdd31fb92cf09c5f2d,(-0x15808009cea84b300ccaa338e705c66fa085898715f0d68242300eac999533108962567404ea1ee142c635a872e1486e))));
  ((0x266fef44c53aed068545cd17ffa6b9fae9505901a1357b1bb47457b22c68e79fb422f70fe541e6002c54b27b172b2b39,(-0x156a31ccb2571478c248d92b679d3cc1281d5b1288582f3fcf6b744f6333e912aa5e14f3eb31755233e3ee0b265f323f4),0x5c56bf9c7d20234e10c22166843da1a856b936fe7fb2cc2f418ce7ee8ab264cb190ab49b57d51b9e5b3df26fecc08fc,0x14acd68b088e037cd99241ed26b6702414be1db05e49f36731a6be1e62c1c5bae8e4915b2518bdac9aa865e075ae89bc),None);
  ((0x28aef0cd560ffce8181136eaab3627da55ead8041c1ec91f6803157a028a10c8730619bf94a06a9e2fb1257fc9417734,(-0x83675ad875b85219ce86dec9f13a57d3d56ddcac382d53a0cf9a80de23973cd7c4756823cfcc8ffc140eabfab742150),0x67722cc6487a2d53fc310525c43c3a5c7389c8182802f8ea558c18e0e8cc4cf1e15934b9bbbe06f456072add26efddf,(-0x18fccaee280ed7674d6909c18d6f5b3ca52a269ed56bc911dc8777aa85ef6393fd7310c39fb151b0fc82fe3826b32565)),Some (false,(0xa7d7ca6397de4401d12efc5dad3a9f2cc620cf1b73b764887ffe0d28ba4ef490a36277e0e9bf79a0eb9351174b57ecf6,(-0x14044ca34b0f2148f0406320f96785988ff3b2299c2f789854a3af81dc5ff3050b919706d11a24b178bf298929c7b966),0x6e0b3ff3836e667a2d4c16e837f3ac50be6e7584b7010a2d79f3b6edb4bfb6fa028288e19d39260ba7ef87588fe0faae,0x1007f8364cd6e367d41da5ba82967daa83deb9f1943cb32d21990bc8e272cdb23b9e6645437c8e735f96543b0b5f09c6)));
  ((0xb357ca989d4b3e39ba2ce4d5f512eecd29bf7b2091f8c18c8dee527621946092902cc9d6231676bc4385e5311f37ffeb,(-0x4580a34a12aca137d8f750e0ae82dab64144f06ee83b53759bfd2d88f79ee9a79bdfc6071406747f9c73d6c8aba04481),0x7da3e36cc007555eedc9b152ffe49bd4d15d203b3bb54e752091518c8a2578eb559cf4199ab7905dc5cc26c09822a465,0x33abd5f73fa0f9ec19a9df735f1780a1ae9b87bee98f462fa19bc4c6c3732f9e33187416b8ce91bfbbe8d21ef202355a),None);
  ((0xbe96afe83bee594f5e7ffe0d6feac556809489871a15053b7ae9affad3ff0fe9e6c62260e6e7322af33bb1ba0ad9585a,0x4b53caded9bc5b515f794efca57d63f38fbb7e56060603c345a4de3c758edf740864c187ddd546e167bfa01aa42e6aad,0x8de405cf55fb5c7f056cd93cb37d78d082a5ccf2de2559f2d08c82ae879744e598bd34ed373d8eb7889a86ed37310847,(-0x1da1ee1dca6b51cb270db70db16203a9c2833f267798b873370ba1567e924ae0e7f75a665377640a3bebb1ea4cc33ff2)),None);
  ((0xc566696dc3e744d96fabafa9aa26ad0386738db844441ed547e1b9d044453eb6b002ac14bac49f185640c48b829866d8,(-0x7a4cb8ce268675d9f3ca9a638a4af7a5c39a3b7c4b58a836b8ebd66c8e8e173590935b5342f8827d7c1c219e2f572b00),0x9836c73b1e654605a2785bbf9c6b329d1f19785db3fb3345cd9f7e609831b1ebe3f120dad196b6510a97582cd83112a9,(-0x4f871872259f40d3f1b7a8241ddea0450050f0b2f5978eae8016405c2741a5a989ae259b131f13b28b1ba8988d08884c)),Some (false,(0x4827261c929af400718e17ba03cad96ea8727c88585eea8667b43ce78019293221a9c0d969b229f9167821672597a4bb,(-0x153647fece16a3ef7108a6506783c2c7b5537c778e867542cebb8a73015e15df8376f4cda8786f22b49571d06586fd48),0x14560b6cb4d8532cfe4d248ddd8f3669531d6a4084ec769f0542d75db06c62da8953389d8af691424d032c665e795ab3,0x13a1601e143789c0637acc51cb92051a45adc2552d21fa7395af1fa42683ef2afaeb43f55ccc91d56dae7dd76cba9ccd)));
  ((0x4ebcac5bfba5f5b90c84befcdb098de58f4dd0a23e3ae81a9095819c1933278e3091e1b6625001b882cbfa3f8c52c55,(-0x164e54734ac6e78e9f72b7a858ba8e7208fed5b74534d0bd3465587eb02cdc47fe33bf5d1d526455c31ffc884fa44f109),0x18378415a87e78b18cf77d2b6ad13ff411751134e4008477a2e2860534411c87459083a667381d2ca96dce642d17ca,(-0x19ef1c5db33bcc0e65a83bf9f8ab4e75f0ecd9b28f3141f7978a53dd26873d0864a1e478e8142b29ff4eb73b1625a0)),None);
  ((0x8d57f0403fec290bf39d403f15ac0ced6f3ce02f0f40fd30c3440b991324d89f51728340bb2f77c617bccb6e871cb887,(-0x12a9686b13d092f79bb6337f1a666a34e0149213dc09bb453b19b62262584795161c5801fac598c3c082c950e91f2e21c),0x4e09fcdbf38e1fb5e37bd277665c0d807b14981f45a951c7282aeb668049d865f4c02ceba6274c4785f08cec14fdc5e2,(-0x24ebaa01ee507254cc1feac0cff1d1ec77df1b3c459283bcb54e55605ec1014f7b7c7a7cd3551d84f5bae67836382397)),Some (false,(0x9cb6fc2d2ea05060c6a1f0ca167e84d05b0291ebe026d356429b22c369daad59c1f8f385c9aa2a133816f4f3a927dd02,(-0x2f98e1171893929d7a5df138749d154eb67e396108dd827e08ba5f23a00b59f2615b9afc9d68ad687be4862f1d81e392),0x5fef8622997aa9ad46c89614ab55cec82be4d0563545c615fb979ba7a7897f5b394d07650dcace167a76dbf475e2a1e9,0x174f2ab1c6b872d3df815962374599788756d8efd13baf3e23f401850e4a9687b6817083076e4c8d07d45f58b752d7b9)));
  ((0x2c54f08c6a5a56d8e3c074aab87aa263b5ee97c8f075d2f64a49425bd7ad2c7d6e8e8af2c2ec154876074102df9728b2,(-0x1ec68bfb0e94286d3eb6fc0d570b4c25862b832b5787a2a610602cabd2c93bfa3612371a653430aca1ccf3c16fe0f19d0),0x7ad4edf02bc6d916e743675ff44e1a2652bb3437550f9688dccd64d5c144a1f4e2db577ba06738660045a41fa8bcdd1,0x8221dcb076dc707ffc154c2e6fb35407f524e8d9bbcf5053cba1a3a99b81064a3d550085872b97bc79d3ef0a7be90b1),None);
  ((0x8519a24a88c16b9886bba8d981feaf84899caad3a7b1fd0230474fe22dd81a4c64d6b43d75a381bddb7a553e0d5de18c,(-0xea6d95dade54277aa26a1ec3f61d4b3032e033eff7ff88661132d83ec00ade79b1f0cf17d778932d1edbf2418c463620),0x4533a5328b8a1a5ba4d6a141da1a5240533cd0adaecc3da7d3b38d4eec34f14d03fab8387a379b8a7efcacca8a68a6e9,0x37e3721c3a3dce83d7816448db77bef4dc974b9dd941d7f81092600e51d17e529ff293682749afb475922745a4339224),Some (false,(0x4961d1b190245b44c2ec3555d4f7cf1a17c42c9bd3f14dbdac6d26b4374771f46a3ef90d582c90c984a4ede168e661a9,0x20e72d717f3ee3f4465cf0b503e4b34c9a09e7dad14d2de6fad4ec228e89724816cc4d9e434332f24a955d0277afb830,0x1508eef7d887601e61bbd49dbf6321d091b5c5773e2d349b3a7e86c41b8c79af7b7caded2c4c2769cc50eef529a63b38,(-0x199e819b88d9af6f35be84b2d39f322171fb00f3c38181a0053c8c49cd31804561a9513a76d06d1f66e22d8c867727bf))));
  ((0x68b2fd3c6cdd6daa2de742f8ef7024e980ab5786f423b6a58c08c143efc7f32829defb0c96d5294acbdc960f4acf5dac,(-0xf26bcc685e78ccae5f53aa55a0f1d9be1dd768e46ffb7d007bb7d776ccd67fa763cd128c4a1fdef677dbd61b0f920bf0),0x2ad1eae63afbca77a6cd1692210841e88d050ee80c65ba24a1bc7349f4b8d5407b5654dd6c781579eee4b88448f7a8f6,(-0x6e9a4d8586b2661e2c829073fdb37ea88ac8177d3567314a079e4a11e2e24bd89dfd2aaf2444b96453bb626c9e88701)),None);
  ((0xe3106e7f2137e33f9f426829ab6ab50ffe80f8b0163842cc9d7f7bd65de5fce9d09f731c0bfd1707c30c109fd86f1e43,0x1c27d799a47882c8800d46ba027d09676154b710a58e87ddb19c1e71621e017ee38191ab2eeacdad2b684ce4c0232347,0xc9662503747ec3ad3d7147cdd6bb44bbd167d163e201880c247ac714b7fbbdc0c390b9d77b0eccf2bb39e4f236b18749,(-0x1e519c0f060df557f1cbc5731de03548478de66e3da7071ae21e57a04c0e54391ef1ebff45fcefc82fcf85688f2389b9)),Some (true,(0x7d4248a910b542a9f9531ba84ee90e3b99416de0e92cb8f8076e4a9a159040b67e697571fa21c23884e0583af360af50,(-0xc8febd1767f322306e41faa84065a6b824320a954e12ec40848edaf8789195ce9b5e88a724a39db3624fe0b6e6e7060),0x3d49cc1ea61d299d6308813324028110f4c806f5bbfb5fe22c74627d3954d5a300c936fb50bcdb7878f32601b0607232,0x3ae3ef2df6ab97099d0a04ea431de9b9c5434da7975bdc5f9020484dec29668e5c32dfb548a515e9ec04140b4a08225)));
  ((0x6cee0fe94d8a81a4e0acbaaae196c53078d18585b010257e45d7067f654ed7358480315a4db0dd71847fcea520d68200,(-0x129590fc46488dd9303fddaee62e5b2ec9f8d88605b47e0f677e2ab5c8716e0551d810743ae234bda79034f31481c6cf0),0x2e59bace703636a0a4f16c0db2f033589e2e154eb1873f463eb3629750458ded17ccb3a28d74901aadb66ae5492c440b,0xfa9feac764edeaca6eabe85fe2979cb55a82c0597a792c3e992737edbd8edd7a48d7ac8068b0e07fe1de01f5acc977c),None);
  ((0x78438ff4f5e64c84a0730bc8f9a2e448c3c04f440660f46f673b73f338c3015f798e8ccb9508ee90d2c0a8c45ddacac4,(-0x4e1ed87c9972bc453c369530ebfae89a57e07647d1487a5b16ae374c24e59f6c0ea3666284c87d28730d17faf26ddbe8),0x387f68ca51b4336558887cfa67ffe689944d0dedb2d6922e9c72d7a46b20f5cd36b6bb1b3408985e8683440d2ccd0404,(-0xb28bd1ca0919bcdc0ce74c2f478cfeb56b12e511b12b1e087e8ecd15c2210d8e1f0012c5c2f8b56079ac50e725ff0e3)),None);
  ((0x801210e1738bfd500c2a3f27058ca32950dce1ae82d375d6124d45c9bbe18ea23a7df2ebefc91e986910a10a50c71ed,(-0x163946cb4112f51950439205bc07fb002f9e44a8e6f81168d4f5b0a46898523e1266240fcc6df39a776b0e4f3182e9dab),0x40121227d45d31fd7b504f758bb3c9ea5773310a30a983155a6ddc0da5080f12cdd975f239c91038d21c89970fa284,0x2d5ac4469144f3d08720ed4770fc4ae74a838eb16c72dbac15788ff9cf0c71eda8007aea3c82c870f7786e484dc89ae),Some (true,(0xc9d80a6d45915f2ed855e93912e29f1a5100e2e6d978bff8bc5045a48d422c5139cf9d36e9f05ac854e5b0aa3c0d98ef,0x4376fb01a6b0e24ce9d2499e5c902b4dcd4096dd33838bd3107a2583550f21607d19e3196ec0570d962bf1050cca205d,0x9f24f6b1301064dbdae65fdc566bfa84c8a471f2dec8b5c46ad5c1a0cce6eda7dfe99ba187b3ef836465f3fe4c807e18,(-0x21b5b379c7c0d13181196e57fc838f2fd10765edfff8a59c1ef8ed8ad6b3ffc2a9f108a94e99a1d82a4ecc4a11b01329))));
  ((0x83a291176b21f3889b724deeb8a39e4a41e60154450ade05491457d5d479ebf250d5e215f9ab979c4dc3109c7bd20555,(-0xef4832cfc630bbdb08d720cc5e2a2e57605d0bf4f21bc1d9df7e04552300b75846bd46cd6764ea78f6480174955024c),0x43afc7b9eb83dfb6eacba12540c1d1c109d15a8894a6abd3bbd748aba705985eca8080b05b9c7b4e3179e45758930612,0x166d72746a25b468ee4b109448590c4faf82b873fc632439a0629b323bb9c51ee773a6dd9f0a4876b8922a0c35ba7593),None);
  ((0x56dc618e5fd29c0d76a5d72335977c66ed8d5d85fdd4102356ca707f18761d293ae1c46109c30b6d28809a6dd997218c,0x407e4d36b127f1f0cddb121506ddea3af4716c573090863dd87222d41d93d09850c479ca43c7e44ab96298ce0bed98,0x1d78cf437a4366a14ea0a9851ccf64afb269b3877a4daa74785e041c7903d75aeae0509b2deda69a0be9fa3acb15d3ca,(-0x1de560a4cd44dfd6692e21aa668b579f8a574a8d4ba586ad122c17e275791a7be32d810a7dcfac57b8859029c49e1c29)),None);
  ((0xc3e0be7907ea7294432d494a1127a8e9cc48c3baa5c87741bc383b528d65a55eb016226dea5f1fdb186f2ec242e7e335,(-0x11c2205d659a407110d1e59b98c07cb0d93939066c1ad0c313c54106227a809fb3356bd92606b2aae0a640ef6066d49ff),0x95e0277a4394e5cedfbf99bf975954b4f8300acc5964ae967693210cdf76ee9562af8edc6f1f9295212c4f1cf0ad552f,(-0x14ef162f69fbb835b7c81e3abe949c0e1bdc0cfb8ce7cac462720d890ae956e553e1adbce1dc60e0fc07de34a645b555)),Some (false,(0x2a51d5a2b61ec823e3a46251d9076377553f1a0f0b093d09017470683070dd093b77dec2425a47f1a2653072c349d119,(-0x4cd0c1c811c781be57caedacb83d406ddf8ea4aeb04dec947dc9cb0acb8bd31aeb8424bb3b64695c301635c57cd7dfd),0x6fef442470183a0a6f8cccb47399519612031ef787f53241b84ad60b4bdad8333375d78f955736cf52d66c5a0a52298,(-0x1f61d3b86545d725d67e74f1ca9c218a542fb40db02badf32cea28b4d0e8b8a8c51934d042f5e333ff2877cdfc10248))));
  ((0x5b83a174c2f0be1a56765c86d5f6e96a0b7b7c183e8710b014adcb686ed9975ca7b0ac94679ee35e033c7868e2801a50,(-0x1d94d0a93108aa19ffd39a831e87783fb93f81ad3778b021152c786f59ef489cda19deb3ccd95287fb71c0bf94eb2f837),0x20b6d877a5eabbfd5627ce0eb35a952df7be8bc255a0d02a745f6562774c43b0424f47915ee2fd7151b3d2d546f7d2ab,0xe9f8d0fcc6da094668929b3342be2b2e921869bccad7b55e3cd4a7ddd646b64ba034e340e6d8c457897c12bbd090501),None)] = true.
Proof. vm_cast_no_check (eq_refl true). Qed.
Lemma p384_disc : (0xa74331c6dde30d605b872fbf04e9013b268170a0f61005c30b188769d8b18f029ceee2c38e1770b10de19b3a6e320584 *
  0xa74331c6dde30d605b872fbf04e9013b268170a0f61005c30b188769d8b18f029ceee2c38e1770b10de19b3a6e320584) mod p384Field = (- (4 * cvA (P384 (fun _ => None)) ^ 3 + 27 * cvB (P384 (fun _ => None)) ^ 2)) mod p384Field.
Proof. vm_cast_no_check (eq_refl ((- (4 * cvA (P384 (fun _ => None)) ^ 3 + 27 * cvB (P384 (fun _ => None)) ^ 2)) mod p384Field)). Qed.
Lemma p384_ok : forall decomp, CurveOk (P384 decomp).
Proof. intros decomp. constructor; [exact prime_p384Field|reflexivity|vm_compute; discriminate|vm_compute; discriminate]. Qed.
Theorem p384_cert : forall decomp, CurveCert (P384 decomp) p384Order p384Gen.
Proof.
  intros decomp. constructor.
  - apply p384_ok.
  - exact prime_p384Order.
  - reflexivity.
  - reflexivity.
  - eexists. apply eqm_intro. exact p384_disc.
  - vm_compute. reflexivity.
  - apply (order_cert_ok (P384 decomp) (p384_ok decomp) 0x1000000000000000000000000000000000000000000000000000000000000000000000000000000000000000100000000 0x100000001000000000000000000000001 (fst p384Gen) (snd p384Gen) eq_refl (toPt (P384 decomp) p384Gen)) with (2 := p384_chain).
    rewrite pv_toPt; [reflexivity|vm_compute; reflexivity].
Qed.
