(** Certificates: the standard generators of P-256 and secp256k1 have the standard orders. The chains were computed by a program;
    ECCert.v checks them. *)
From Verif Require Import GoBase Json GroupIface ECJson Curve NumTh Primes PrimeCerts FieldCerts ECPoints ECStd ECCert.
From Coq Require Import Znumtheory.

(** the generator of P-256 (FIPS 186-4, D.1.2.3), which circl returns as Generator() (group/p256.go 39-44) *)
Definition p256Gen : Z * Z :=
  (0x6b17d1f2e12c4247f8bce6e563a440f277037d812deb33a0f4a13945d898c296,
   0x4fe342e2fe1a7f9b8ee7eb4a7c0f9e162bce33576b315ececbb6406837bf51f5).
Lemma p256_chain : order_cert (-3) 0x10000000000000001000000000000000000000001000000000000000000000000 0x100000000000000000000000000000000000000000000000000000001 (fst p256Gen) (snd p256Gen) p256Order
  [((0xa249bcb3191802d3cb56fc75a8731f848e7b2caf080f3477a4e4d904a671af9d,(-0x211d1d206a8228ca3f068bcb77b6c66e965b291a72799fab76713dc1b6ea6cd9),0x66e168103bdfa57cdd53063189a61e37915827bb44d670bd3c287263db86185b,(-0xb51838d2fa990fc8a24a572b59edda8bd8fcf1612aa22bdac765f9f95e4f3a0)),None);
  ((0xc2489a9eef61dfa06d3741ff3b405300988bd0db42a937859069b9cefb576e35,(-0xab9e4db4a865c5d9faa5ffc347a001265457740d67c4105697320488b09397cd),0x93721ef0cd0cb79b4714ba2c81dc32cce646a0350aa32bf6c06d0cf8f458a449,(-0x4cf01d696fc77cd660b950563834767fc99586c7873df1c1e82cf2a1c41e1447)),None);
  ((0x3d3f7094389059fb29d62c12aea203c23c53ca0f84ba9265d34346d498d0ce10,(-0x1eca2fe1da414cb8c30bba9b799e871ee53e653d6a1b8f5b127328ed415e611f7),0xea74b5f4c11f49cfb1c996f4a267a7e24e2dd3ab6a3c80073e4f8c831980337,0x1e7f9e38231db0eee368954cb73a3bc7d5c1732370720bc48adfeac55cc17054),None);
  ((0x6fa44fab12ab52ac931dd31283af3f747d8609c5f053383c43a73240f7256e8a,0x24b19cd6409ad7a8ebf18fff6c25c94178f926d878f3778198f0f15f5f193f60,0x30afe68cb6db6b97ca1f5fec553bcc02a797798ddba823867b1c154428680130,(-0x8a3d4dd3b7c308abc6f84be9e7fcff6ab59e76fc341a3ff029059d44362b964)),None);
  ((0xe9a817f547273aa32a7361a18e9620f2b838a409be826cf083fed49b3c858688,0x9072ff97b17d926efd9a117ef0d8ae7b4f0ecd4d765e7f5492462ccaa1695cc9,0xd54369fcc4f434003a84dfa5183e460e8f6f496e9acf7845786ce5801ccb217d,0x4beeb28d63c707a6226617c59b06682f99879cc3ea2738df382a7261a99d32da),None);
  ((0xcbf7b81fbdea68d4221b26a8e5a24b1cb5e9aaad01ecd82899cd638e1942f764,0x63667132eeb77e71179e7c472d6d34ad329e9a3b76bb38d3c3a824970cff1a30,0xa282cdb7cb62af3e62ab0b0f60a0815501e6755e9efbf52aba87d78b076a6a37,0x1445a261b4a1c21718a610860c418f6412ceb13f2f9714fe5876d96ef4418384),None);
  ((0xfc4b4bd92566c2ad98242459501cf92d7207904e764ab66789942b0325b9a3e8,0xa6c3755500406e7e237b7b435de8475864606c2be7f28b72dde0f29d1a78b5a8,0xf8a4537a01fb810f82541949a153c7bcedee185b4b9be615a5e78c13ba5151c0,(-0xa1d8a2441f341a36c2620d1247c52b6619e2669cefa737076b8e1420acc87683)),None);
  ((0x93fe002b120dc226d15b0f98b056d3392bfd56b35499e60a5f7ad1ff70675535,(-0x143696e79a7ef9e40e7801bd80655d07cfe16fa02ccfe0c3f120e21c080577935),0x558db03621c157bab78ed535f8874a47304ba1887fac3cc89e14c9f052b7910e,0x464d9e9c571c4273e719dbbdc7be32f1381b29d60ff5195c10cc369bf7be9842),None);
  ((0x59faa582c6b4f84cf05a7f0a2f866f67a3845d45e19ba871c83298597acc6389,0x65908b9a3d1a9b07610a61685c64e2854fbbe295aa1c4b5f48a1134ce93b2f9c,0x1fa03c7cbc38018ac417ee21214f84cee8d97dcb7399a72c4b143e1267d4e1c3,0x10d323c1b3aee442cfe42a551d5028ab6f95e6d86f33dbfbed88d1ad5be0e537),None);
  ((0xd2b8741587a7b2e52655fc308e92e0b0e32ee6e6b41d84eb93aab4a3a4141961,0x503a09c7e604a3d55063903b049886adf07f07cfb7648f4371921e06776e07dd,0xad73235b1398caab05f72588eb25d26703e6a3828205bc9730748d628b34e502,(-0xea97ebc0edb4326aa8a00eaafa5cfc3a6a02cbeb18eccfb632229e6033aebba)),None);
  ((0x1c063129ba7b4a48b2e70f43844011c46be00e0e9073b990aa60efa9cee08d40,0x2cbd762e0947a61fa906d84efe5140ae03e46df472ba31019a3f52bc94621b10,0x3115ae77b42111f5080a77b2e9351ca09138db161589532dfa8fb2eb99249ce,(-0x10ce58fcfde67a4a5aa57d97892fbc31cf231643a3301d16c369c94c380a182d)),None);
  ((0xa2e3cb03c0248e9badcbbcc1c7028566de6e61b104009831a5104754ca52749d,(-0xcd37cb1ea242b11d96ed647d47ab030f8010f2b0c8cbeb3a00ffc6e060c2d47b),0x67a517a2d0790fbc641d22b8b337805d6fcb19b64c8962109aa6a6482a0f3a76,(-0x22fc9224dd2488d3091e2e9445c9193eb8ec805304d66ca31476d4d8966c8fe0)),None);
  ((0x960ff72703b0a682d458e8c237f82e7c160c43f0388887300239f5caf2144511,(-0x2336b7459faa25fd0f83fb582dbfed133da58a5cbbc63c38bc1dc425d805a5142),0x57f6b6a0f578778672dfa381132a42abb4a59d2232166005d75530dd78b1f810,0x5280a4ba101cb7d983c31efcf888a972b6c5070aa629f95cb810d09b1db48968),None);
  ((0x928ac84a888eeece1f740cddb2fe2c3ad23b782d364f2f64e69fb00ff124a44a,(-0x5713610958e9e3f4583845a3c1c4b1c117ea2048936106ad2ef6e9e577f907c4),0x53e297b1e4b56540b3896331de0ed520d07847ebce361e956017652825540b01,(-0x17872691f90e705a2f625594bceaec7166c74971ef0823f505efd9d1437a812)),None);
  ((0x2f62106edd7774f71f1f577bb87c80a69291fa99d469a7d590bb7efe497f0e98,(-0x17a3dc62f4ec84c74bf1ea64ae80d7d3905552af8b3004a80c7b476e81ae7490),0x8c5279954069fb396c1ae2bf3fc995a8cc023436bd812bad5edb022fe72b37a,(-0x3d6859cb7acb7b3b01ecf19a5f845c127ce3c0e3408c2aec0a4219bf023544a)),None);
  ((0xdff9619f1fed418640882fc607fbef4ab0b4bb2ee9eb5ea61d7f347eaadfeb72,0xc2a96182651d979e206c51b5e940679f94753b0edbfa3ea47d7eef7dabd348e1,0xc3f46b030a59d7ce1a56ac5f457a9c7ed24726a05da772c420f83fa09ef6a478,(-0x28a2f6b3ade52d7eb779a5c3272d3d66bbef1b91501b5807062832fb0a9bf435)),None);
  ((0x2bb34155d1c3e85258cd7587c389773ca8761dc07d32d1bc095f476c05a7c13e,(-0xdef22b29aba6d16e375c64c9e3b736be571eb0e46380508255f85fea3c9ada93),0x775b5774a9d8ec444189d24746dca7919240786a18512196badefd508424db1,(-0x7bfb289d33fd3bcaa2b3b76ebe54885f5ffc8a9c3e4dacd8fd046eec3b63b13)),None);
  ((0xedfc2e37fb69a62e021b6261a99df3018dc9eee2e4229d1cbff1ba56b4f8e3d6,(-0xf5eac62cfdc4cf587801d1e328a12d3e390db731752e691b25a6825c6549bcdc),0xdd3ce5ff8b4da646fe91e258ac771e471ada910b1526c40f5adb4d3c290e1a90,0xb0bcebe17d2916d3c9a9767c3e8743eaa4003690e8661a4094f82f340c2f8f67),None);
  ((0xb79e006a59b12e979226f397f11da4e07f4c0c6e00d804571e0be779c48ea25c,0x161ef4cddc14e2ce01abb6211836a8e23f33758069122089ac7f7183f6451d539,0x83b3461d1335799d2bb58e63e4b9d26b1b5d1ce271ff7979aa9c35ad1d7e3edf,(-0x27f9a056bec5df3ec2abcfdfe4c13a70aee551998cd92aa26d98c9972d60417e)),None);
  ((0x45fc98da6728684cf421d291dbdaa5438a2bbde9eedf856c54e1d2577a0d15a,(-0x3a1468484932f950ce1775d6d72ef897becaa0704fba2eefa955a49ad4288ca8),0x132223a317fd183dae3461fa6889f24718e5825010dbea853e2a396e6bafc3,0xf661bed25ee7f9da3ff32cd506975bfbf40978cf61e118f9e0b2c284996434),None);
  ((0x3f71d35f5943c9d82c6297d4739ca141ce18dd97535b82f9b6cbf6a3a3bc338f,0x67941f48b67d92be821d28a5d82d65395c41d147ce833c1105aa19884e9c9378,0xfb938a5465bb47eeb7c8d854c33dc581266f0bf9c8fb28e1a3ba2b2b3242dca,(-0xe0c94472a4b8f443996465f674ac348e87bff443059e25a0e0b010ed10c4d4d)),None);
  ((0xb063b021ea8c4d521a86be70cefe8cfca350e9ba8c166c8838fe6446dfaba3e7,0x35317331d9849565678255cd667c24320bb16855e2d6713c06ab7c7b2097cfe,0x79893900cf7432d4414661c8b7ee5534d786819ee9c7c8a9f724d6b9820e12af,0xc8f1be052c39c4846eb4ab824c53d3080ab493f86f8abbb6c178acd3b51b324),None);
  ((0xc96ce208d5d84115b06c8101fbdfc996fc19127fb826057aa9a56a342393343f,0xd50a77261ce7488f608fc333eba4d0a040c5a957e7bece75c03775055276364d,0x9e7c2941fd51c7cc3b3ccc82cc66d02323ba41142465213be7845669ebda5433,(-0x8487b22d2c4435f670ccff0b26aa6fb5b78c9ef8f52591da88a14c6b554bb1b0)),None);
  ((0x58cc0685f3b5bd459e0a56513cc139f2ef4c79222658880c7b9e910437232a37,(-0x2382f9fac72dbb47c39d4f117176c2a7ce89d31bc0ded77236fc3f00b3544d113),0x1ecce7169c00d05fa887593084f6aca48a6cddf700942fc50490a22075f44164,(-0x976a538aee2d92ca7efb581a274fe1c3de5c4b334875e6981b62de6639d9743)),None);
  ((0xc714a5ff1e67f35e138db56e27766a8f370df7a9aac6afe2a684adb2f9318a34,(-0x171638b443366d5748839ada38fb2125459bd4fae74f931c0e0e3b192cd856d48),0x9ad11bbd979653c6dc49381e4917471331ed7be7464c7e2ab5139bad18f36e20,0x445403599a1cffb403d07d9a0b6dccf0b5b09a9015093cc1167c31703e559dde),None);
  ((0x244464508464873517783cc6e016573c75cc1d40a0821ca2006ccaba14e5ae68,(-0x112389e7d4aabe7daccb8baa99aa0bfe2a76bc6c1cfa514854f52f546b672c417),0x5234e7c1c74eaac670db395c6fed70e57cebb72f8af8def5520896638b74c1a,(-0xcfd4240d197ba8d8fa295bce01978bf7ebe517928e3dd76b40887bef71ac0ee)),None);
  ((0x19942949a63311386dd5eb50ae3bd81d89fda56a29528618285086a145bbc75c,(-0x2e317eedea5aff61483d4af8744db5575fe7700bc9f1d7672f23c72de42258a27),0x28e45d028d516a5a583c205897598091e7a34583b7719a6603aa5fd4feb7f0f,0x15964d2506ca53483de871659f945cedb9bcef2db5f82ce7c073e032cd8afbfb),None);
  ((0x89fcec8c449f2a8727481510ba958d286a3ed95b2b77e593d4a8e3bc100d5f1f,0xd55a57acea55fb9eaecf1f08f05464ba3efb40a1bc04401f0e5f04d36b84db72,0x4a60af10fa8d0f51a931828394c773fe0d914249649aa0b862751b01d666e402,(-0x2709cccabbb7f9715144b0d436b06367fe895df309f55034b0fa5a0e68de592e)),None);
  ((0xf6c406113ca7142ab7578bbd87c1fcac561785320d44621ae23c0bec57db9931,0xc62c6fadd304e266e14ca5cf8adc5f2d8a883c4d496e47342f94def90c77d0fa,0xeddd51c358f81c5c566135fb03fa2f4d6d5570e6b685e0527af1dfa7e09de423,(-0x606d6d2d594df43af5a33bfeefd180f277ac12b5c3928c92ed36959a69967eed)),None);
  ((0x1c544e23cefcf6bdc7e2661841017cf1352b6cdad766837a00109b5b701a002a,(-0x1f549bfdac8ff4c76db517f68e91f8e02a8698ff84f909da274aaf68b39e83363),0x3228cdb37c38ffb0bc8eacae16a343d2b0a53cfbacd85d931f2c1d27976bf0e,0x3ac75f7409f1e3e3723bddf8633421b77fcc07ef2481a743c373e1296578ac1),None);
  ((0xe7af93b02913d49f7ff08817eb8b2a9186ce83f590aacc4a439598e38234c827,(-0xb30c3862e647040d3409305c3f83e008b1b111a71b0a7508aa2d6fc7773035d3),0xd1ae54f3fbdc102cfd2d9f90bb61f072afd1b970742226aa28de79fce7f3251e,0x279f39745ad948485869df41efc490bedd923718b05ac8b3fe5e5fc7feed7020),None);
  ((0xe353b7ead6b8630cc720fc9e590a4b3bfde6404ec154ad7d5f0e3fc795fe64a8,0x3e893e1af9533182d80ed46f1d930a481b2fcdc0b4429deaa04200a586d5b648,0xc9dd938c0911652cfd6b937aac04a9990403076b561a4283fd04263ca3d4e9a9,0x3d81c1a3b355aada23c8f009119e4d7019ff8fdce8b59474d78f765b719222c),Some (true,(0x69f17b1d38890b71161e936f785871f30e6e559941dffb77232c79d5399a6f6,(-0x89b1f8c76a4828abc6895cbb79baab146256bacd5e9f83ab43d6f1b13bfab9),0x2bd7fac72c71efdadc3230d5d62de0f6e48541474065a3f9102f2f52aa4856,0xc919ee88c20ac97011d66a08c3dec4f7908db9e8513dd07456b5dc040b5a89)));
  ((0xe7289190fbb5a7d7d62b51d40f3571670d41439c83a980a6ebf0c77129c5ea30,(-0x10e881b5f68e1e96507d2a8e2c446efddf370fb342647cdc03e1ca7104636240),0xd0ba3d2247104a0d5a4833975f967fce966769b1aae11337b719b2d2d8cccb9c,(-0xc4df20be98fde39eedbc486b19e2ec6c601dc0168fb8fc0b266dcff6eac856b)),None);
  ((0xc0c0f69007425dc498074987e7b1b2cc32e5edf753f84c8d1e31e83a7f4c1fef,(-0x6d6ba349428e8056da8bcf9e7a4a0aaabe888264821098b704cf0c73352b3895),0x9122034b6189927a126a8c171dd231bf7f33a86aa6fa57d4f57496732803f9d2,0xa424bb133f015523c55f8e70a6827a3e1bbb039049f7f5f9a45d9a7328a03bd),None);
  ((0xe2266a64fc9e96910bfcc391499f69e6e3862cdee724bf5f53e52619a78d636b,0xbb969061e52387cdbb75767ecacd4a09be8fc9360e2954da07a0109318f9e02a,0xc7c7d99ed802a3948652fc36b60f7ead0c9b1ed2e66dc698076d28cb5edcfb09,(-0x1ddebef1673277b4a322dcd090e9623fbfb49463fa6933485ba9af218c399092)),None);
  ((0xf7be988964ec4116f418581f98955a9ca415e34883c7a464aefb4b965b9e49f7,0x10d4687cda1aed26db20896aaaffff1d4b1c5bcba36e3801bec446ea4059a6bb9,0xefc15840d7567e208aa0cd5fa6e6948cf0043021a66c4cb3e67a719fc9e44111,0x2feb5196df973a166ff6478c23bacc1a94e3f1e9e006164b2ba8a78c3ea435b),None);
  ((0x4eb34c79827117c2632524e9f4d02fecf1eede4cdbedd17bc9b364e5ee04dd99,(-0x5be5bb63a71727a1f38ac484be9079e8e53a5c08e0dad1fe4df831550c74213d),0x1831c02e2c7373ef79fdeae8ad6f3f88effc82c074fd95a7f72309d2054c6311,(-0x24204aff0660aa8e3117960b35938ab7158c0347a93c85848d2e6af46ec5de6d)),None);
  ((0x53b963e0e2a551f86b7527b4da6ce25b70cc5b23592b9b7b4a6768e1eb9eab20,(-0x277d7e00a4befb3ceecf215fae9ed96543ff1dcd9ee9b8be430775cdd2ef40bb7),0x1b61bd05705837f62b0da7596fab9d29318caefb96d13f6d90e102abccfd4464,(-0x14edbc69156fc068b9546f352316b313b33121191c1fc900a1b0b1b5ec6acef)),None);
  ((0xb8f8d77f98b07b91a739fe888ef94517d1e11ec5ae46114d5d9fcc91b1494e2f,(-0x1c311858c084d22adfc5670e7d42b1e88992b01921e305822895c18726f4594e9),0x85a6a7aa2dc3c14bbc6fc5b1745b5de31e3948dd95f771417aa19ca2e68d41c1,0x821e1bcdfd8fb7671f8a9bd2459091ffbdffee6a5a62e58b95f663ff986670ba),None);
  ((0x856480bf6645295b7cc166fcbf9ccb4213ca02b689e6a51515b002a54653b436,0xc906909cfea2a9361b5da2d0a2fd65757b3b6920665bb8143b3233fe67edb6d5,0x4581953bfc0d4d9c03108764e4901137db209e49fd3973c45ff5018410c9d083,(-0x534c13fe13753d411e2c1a8cadf3cdee51bf4eefc5005da8b0358d90f35848fa)),None);
  ((0xe5bd602b7c75efe5dd4bfee34f6d5f15c12502dc3d6a454e8416bf7262efd14d,(-0x21a292e8469ac62deb618100be9a5b7b4b9ece2bd4490c94870189e41b550f992),0xce2c5a25bf2dc435e86196365eefc9873e2f28f3110a56181b7c4d570de70a71,0xac0843b592de45971078411190bb26c5a5ad5a282dab19d20ed3eef97dc30d32),None);
  ((0x901938d044075d035fec1e3dcc28585a76a2c4f101473d40d33faf2d07a666ef,0xea6ecf47b95f66fcc8a2bcb4de6ac7604369d02fc5e2f81bc5503159c468bf05,0x511c6266c2edbbac3f20407c19ce188bb750957783b7a01b72b4eb9dda3465a0,(-0x5d2a1c610870cf69026aea4106cc6a76643e666b10217dc145a0a6bb5f278d00)),None);
  ((0x225568746c8026c61a929d9ee21cc8b663b8b70852d3eab403172b36db27773a,(-0x1c69bba3ff5f31a28dd84d987a10f69ae3766683feb182ca3293764a7fa356344),0x49acc3d795bb0be74fdf5b90289b1e8e8549acd71ac43004f17ee519971b2d6,(-0x2456256697352a7ce219464a757c01fc9282234a6dab9a32641b83f9eab7c65)),None);
  ((0x730e7f0e730508b34af19c004afc304711f461a3ad85aa214506bbb2d38216bc,(-0x2073f1014daaa836efdb571330d785acf5b2cabe000a28fa3a721e054dfb0d8e3),0x33b606f953b07846efc813c547556ebb3de2ed898dcf2b45c2731990b72d63dc,0x1b1e2c0b337dce85c8a90f1aebf9e266a031da3e3868a6152cbc89eba7c31658),None);
  ((0x61bcdb4b66643b59a748a3260de0d150ba66d53835998a7618465429d353b8bc,(-0x1003b87c50bd03c67804f09794ba1938cb4cde69434fc7ef6a9627f61c2ff6df3),0x2550a9821b811917b7dd5f303b92c038e932aca26a705f2a3781af60ff1f46c1,(-0x177c9e651b54484d56ce0e36d106b291ae89f48d518f7365cd821571b4d0114d)),None);
  ((0xc9651e62d6774d6d434978a729e20c44dbdf244c051785d459e9d397faf72d77,(-0x1e68dc618dab32817e4c451a767f104d92ed4dfb1b166c07962140f3126264b6a),0x9e6ff1a8d0cfd3cdbb68ea0d1a4af4d070b12c8914e788f93c348a3be2942b0c,0x648b0c8010af295eb0544a5530d664ef307ff1e86d748d31e72b13b5b6f22034),None);
  ((0xd5c0e76343a81b2fccebfe410ee5f059d6813035f76b381d8a4c32004e356535,0xe54d10c56e3249c1bcd5632ef4f6d583077f5b1f1ea6834a7925664da423691a,0xb27a9267c71a16642e4a527b25d4e123e85b46aa28ab65eb812eed033ee1fd79,(-0x5c709ccf6ab6af128f1139b4d426c2edb413f6dde4587c8fe4b681d00756c8b3)),None);
  ((0x33ca08f7f6caf3b2bc2dd0597e53765ce9a3a459a2d6ec8c14fd62b9829c8036,(-0x183a1b2ecfb03802ef347614d481bc91f7c2916ef3b56acd3b6230e23b7e1c60f),0xa7a1f04fe70e40199ca1a380e0d4a6f4006078524e0b941a9e1e50f30fddaf7,(-0x7abeb5f3df33952b479e63b366ce101637cecfe09f73869adeadbb22d405401)),None);
  ((0xe3d88474bf049aa8c92e117118d8ae2192be22c3afc88bbb6d45984b246b29a7,(-0x1e20f3c754968b697c597d7ca753923fd9b62cdeed43f4cd63b9f80fe04a9d1d8),0xcac9b2079f16ce4d901a643cd492c14e05760df1e0fbd87601775d7ad79400e0,0x9f8b56a257a8aae1a2df25335ba75f6a5d7a8d58bdbe535c80f73d9835b5677e),None);
  ((0x48e767de0f22738d95a0cde900e2811f059cc9b0b4d8f7c6662c971f6dd8540e,0x5a9f1c52e6fc56c38c09c0b4f3b8a96184576f95658403ae1a770e06639752a0,0x14c2fb999a2a1d91acb70423236fa06060315c6c1d2ae8cd5a7bb909a40f9fc3,0x5aa27d9ea4b8eb154d6c6983aa7429b1739f2049b9f755850a1338b0139dcf4),None);
  ((0x40ce2d624ccbdda2181d7203eceba6f86c74ffecf1099f60709afd4e366ad7fc,0x1aef5f0c621cb1eeb64de5a9a650e6e44459208ef7d26df014bea67e19406ab0,0x1067bcbe490cf866849d1e93fe3cefe12a124f8c6bd4af3126920a608a98e4ed,(-0xff551a21fc88ced9c24a4b4bc03814f51fea086f70db3ea2ed9cb04a3e277a0)),None);
  ((0x7ca5a95dbd0f238188c92bc10fe3120ca5cdc8c94f5543f619e7b4a285fac63,(-0x7d34c37b6f8d5a9232c15e7e71b33721faa5191fabe900d1366f58b77bdcf6dc),0x3cb0e746ceba2d20b906a998c8916109452802120479d5df5717490d129cb0,(-0x207e2f1f3fd4f62cbcba52348584eb2f3ebc5ec681da97863567cf255b4788b)),None);
  ((0x1695cb9add979f9b44bba53cddc3af6ec9a9ada1fcecce7cc21c53ebfe9bf13f,(-0x1417eecf30737be5c16c4b52b5239b3b30d7d8f510ba68a32dbe961b6f83b0d3a),0x1fe16a5444911b18e34a711240e007568c36e1cf56aa4358b3f38742a699df6,0xf1f8acdfe003a59e0278219e470d235b26706295fcba955a94871350816c70c),None);
  ((0xb52ef301be713cd3721fb2eb26e9651c62dbd5611dbf05a2a082290ba0205c5b,0xc13e22fd9668c94512f99f08bcb28218f751c6ad62d826b433809e392720263e,0x803b6c3d32d44c7f91fee356e122071c5d4269ae4e4084cef2005c2493f3d711,(-0x95ddd412307b9d3f2aa63971a9bd5b4bbf61d0871c21048765ebf18c3b7063ec)),None);
  ((0x477a8d7b28feffaee439432c1cb34e620d2b28f77d7a02dd8f8b7b25da055f0a,(-0x205b75ed36cdd74c3d4bdba0b1ef87d33178048a460e6986332c5fe29a3f5ef93),0x13f535258c46a06d7edbbc7bd94db934bd7a09374d482ad96e57166d82fa4ef8,0x315fac40813eb19855a407cb3476890a9f90d230d0d1232d09fffd5b2140cd10),None);
  ((0x3df23d02be64203da86b3586f55929b44d3b721a7d42d1f74c2790f568dedb19,0x583b6134947f014a05cb42e9c4cb784d73b3bddd4b71863494ce5de2a7412625,0xefd564ac57351b84bd227df7ddc87ccefe576afa0937a26dd7f64aa455921ac,0x4b22834c28980c797835e6edbb9ed125a115ec035603fb7faf5744e0083f186),None);
  ((0xc4edab784cc66e9dc3ddc0a1bb35098abbebb6da1bd0379f4f35495b1810da1b,0x161b052f8ba077f01a8ec3961ea57f979b3c8ad2c198efbe513cf1547332d4eb2,0x977ccb37bca4bb1ab2050a801edd68e04aab746e12d4fa9d053092a03e844920,(-0x48ce1e90350e15fa29658762ad35b4399a5620a758987a5ac6cd69248e682551)),None);
  ((0x88fd5e6ed410c082c3ce11a91fb70b3f67e4a7765d05e18d7f947b38ca97f419,(-0xe8eae8dc5d8338f94f67d09da8affac521b07d615f1e562ba1ec4b343240780),0x494e2f19d484b8783929b98dce19bcf9bb6cdfb6e0c7ecc91a77a8943c109b0d,0x10ab535fdb011459d729a13edbea6c2008fdc4315ecb60e34f34921da4965bc),None);
  ((0xf20a57ee70df07d6ce91f0bd0a46160e3a6c07e71c958c66141e21069158d350,0x14749ef988104e4693150057622116ae20f7139a803c69a670b86d6e346f1e81d,0xe4d78eaaaf11f9b62d58f6919aad70f39a613693708e5b16f2b37af9001bf2a8,(-0x50daa7cad4ba4f252d389fb275082041098d6c834c7b842e73de5a44c77949ee)),None);
  ((0xf1fbc80729ab01a5ccb119d4f3c345cb8f969116d59a28f5bc535098ecc8e08c,(-0x7ffe29948656e3aabdc2c0eac6b638d01a798af46086cbda243cd028623b49ab),0xe4bc06403b86e5fd3e051550d628e607c620a5f4fae5a541a7c49463f8248448,0x560f3b58574e9eb36e53474363edbd01559596d2a8d4070bcc407110b18968f0),None);
  ((0xb6f56f88616f73e59cd055fedf26a4e7e9b7d3805a7210f8280ce5f968813bdb,0x15634bd3052021d9afca5b4879ab893b4b2822879128b126f618aab5423ce4c7,0x82c1e5e518ee6b2938a4ce9c1d32d0dfb701453b56983804b1a8c16522b07da9,(-0x1bf45516045e7149f9034895c034be0ee6096f63712fc8a978fa4a57dd089759)),None);
  ((0x95293b8c9d1b7cbee1c6a40dddbfa08124cd4c445226188841a5ce723091ed70,(-0x5f7df9b778e84f90e69d6dcc717597d360fe68da3988551ed0aa81417e75deb7),0x56e905f626af75a0d9b72311927657354a589817d4df5be6c0526a7b3677cb63,(-0x176e457acbcb353edc478ebc22d80a80859b8b2365f13dcfe73942aba192515e)),None);
  ((0x5fc30199770d63f9306b8eb5b70c590e7a78844d7f32b7599bffe25242913afc,(-0x127754f4c24518960a9b0a9933ec946976a479683c64321a248a9ff080ad74430),0x23d24fbb79fc2d4235e05b2eb39fcd13a78ec5c61bff7dd61cdf924a670f10c8,0x230b490f0265f90053c8d6d42ce0d667487cd24f3051f0957cffa354e5c60e77),None);
  ((0xe6f5915845524817c9b060c18d8b717cac8fca080e26cbcd288bf75a7faab605,0x16cd1817cb52774d1f4e78dda715084bee504fa884785d33743024fc8de255e8f,0xd05e2cbaf267d2b9cefc97976685b5e981fb961ee46a6e71a36a0e6733604b97,(-0x5699162443225d4b348882d40cba7acc5789ba36af48e341b0d425740f8e13cd)),Some (false,(0x6ff87c4d20eb575c61afe131e9ca41e649c11844767ade32265ee0d691fca701,(-0x226d4644adf97710e8020bf3f4050076531579119df21dca282ecbce91c28325),0x30f96cfc255019d8227a314f566983eefc6cbbd8d300130362f950463e516faa,(-0x6f122c82c4de1a5c7d8c12c2013222333ce31893f12c09be50526cb50694085))));
  ((0xc8c05126f210e5ac3b2e06f9445780c7483f1f68c8066e1cdade66342d681731,(-0x123322276ac0981cabc601ebbdbcad442c04437faf38cdfdf08653989b91297ac),0x9d6d0f474bcc3a97c06efb2c3addccfcc015b592c8de09b8bd8b321917ef1869,0x8a7a9b60ffb94704fd172a1f0221d1a003e50ba75f7e46a1fd7d40f6cd9991c2),None);
  ((0xaba2e0cd638f25c821212dae55f48218b83662612099000031da86dc1c3ff004,0xeddc471c9dad16da9d453f8e0a9470d590545e58f283d1b5bc04f305f5a01215,0x7312fff41f6e509bf600556fb1e7d62435216607bae3fc6b083187dc42f8721a,(-0x422f73e620c5a9e233176996347a5e61de62d3ecfe60990c225323000b597469)),None);
  ((0xc4b5e18b28c6a61547dd3f01eb1f9a17a8dfb6f78d17c1e6577fbd9aceb589,(-0xb3727a20105696d46eb1ab63ca69749695fa299d16b7642566cbbee59b0f222b),0x972702966314c31fba38995a4e06692771a8f94b32c7d0cbdff328145166,0x5922140f05e4967f5d427ffa0f0a769a940cb1eb98611a57cad65f3c766101),None);
  ((0x6f2855c180af082979aea4e86420b127b1161f2f3834138e8ff6965eccd7cea6,0x17804c94f1d202566ae86fc4e1acc015fe336ea52625527282c88065cfedc290,0x304400b8e70e1236bf4ae43ffd2d0ec6acb9a7812c86be207c3300c74250e9fa,(-0x10bb7851db97b5fb6824ef4165a3dc68e8aafc1ef9abfc21dc06e72b0b2b1cb2)),None);
  ((0x6d6d505a36e2e7ab1552a9f257f30a5217baf8581bf1afd0db3e120234a41394,0x322368621fd29a9d0c4c4870e44c7a85567029c211df4150e100c82191930fad,0x2ec6451a878ebdb3c4bb5a2f057e2610aa1da9a78c1f55bec5f7984f52f2a42d,(-0x81260ae500c5ace887c5032d7520f2c0a0295dae200fb61d33540aeae617585)),None);
  ((0xd8d6e38d9d432ffb72ab57725ba7b3709d7a72f3b00ef74f6808cd7e7c2057db,0x917cacc6f902bd6409442c8e82a5b1654797c7a9c8b1872daff9d6b8c564ec5a,0xb7ab5460ec1414e88203dd6382e1a0346d973f2f636b429a95cdd25f3cf494f0,(-0x3f919d42d93eece36237fc0f5d70e486fb998e80fcdeafd55bf97cc58dc361ca)),None);
  ((0x7839685e3b1710944770f3dde006bdcfeb593e07e9d906f999c4bc6a5d471d1c,(-0x7fe771c39e7f48a093c71f4014641c3a37351727d9812aab053ac60479b6cec8),0x3875deb8345e813a90f6a2178929584b4ec06c5d1de667959fcac1b1e3ab4961,(-0x2bd91155f76bd2a68fa8592d36cf53a45b9c70f48946dcab5ad30b0686c55f02)),None);
  ((0x5a63731c3530d5689d028d4389fceab8dcb7913198edcb70d54afd32a3998a5c,(-0x1eda23c6b361b22d6b1b26fc59e2191dfa39d0bb428fe85bce8e7a8f36b6bc3b0),0x1fea139230e3e84a3bc0fda577be683b4e466536fe2aaabd98a807b876f80475,0x3bd9272b21097208c7e4293fdc3b3ad3c05fcc6f638d5dd0e1a981a6881794ef),None);
  ((0x5f0746e3249f77a6c0f353fb7921586053340458cd476f05c3c73846dd2df25b,(-0x813856761b04972728133738077380031f7fd8833b4e77653de5224e51a0778),0x234666d1ac81c3e9050922f694f7c69101efa64726a5247f3671e63a5446e4ec,(-0x3dbc8be79d7e28c8ae29c5d3d4cd3c675855ab3567a3e5c22f6c8a4c15f992e5)),None);
  ((0x3426eb5453959b33d60a25ea4bb6ac7119c73426243e5747a3b1a00edcc69e9b,(-0x23086a1b820d3fde5bd0146aa622a5f90821db905e7217f8eab5cd3792b66ba1a),0xa9fd58501f15a37ba128e29e5f07913b521b013878f71e2ddf3157f25cddca5,0x1f51e670933be044929c440b7ee00564bf9feb6e88668ab70712add6397358ba),None);
  ((0x5f26b7ffd19fb2190ab8d9a5b0e28d140608d2c726f36eb3675fc16178456157,0x526163585cd1fa1d29793a8e09c8531903d01933394f3de3d8afa0c9bf74dd2d,0x235dc26b252441580f959ef9beda7aedc494681ef984a0de1784306c7069cbfd,(-0x31c523115deceb2f568657bf7b3a80bf6d59578f1c6d5e55d3877e762d6af90d)),None);
  ((0x8a35f537f0f4cd77efa66b95d0c488491921725f2f3af70e2debdbc0b57f5bca,(-0x14ef69997307c2e65919f9c6c7fc2bae1f69d7ad47b6129c9877b48f2cc1de76b),0x4a9e37c00e740a1023223eccdc1bb1fb0a08f8b9d1b0330517bde5eff979ff12,0xf028ed9546975a46c03329aafcecbc276e0eaac34074fd4721ea18bc79de2f8),None);
  ((0x9c98b2d4ffe66ed507d394aac70806a5ae617c41aff6a55a8af84fbc43a5dc8,(-0x175628e22d65a4555fdbaf72b7d94a850996f9447d8c9f4f844861354afa84807),0x5fca7508d18812d4f7d5762bc13492f49ea370c857448aa05fc3e529af96c4,0xaed5b09655ffb2d7b92cd120049aa6ab19093eff0cddba661da32d2d840638),None);
  ((0xf0bbc9d46a45e65178a790836b90227d984a59e17c96875e1b0cfe764f78b95f,0x327116326c133fe16ef495c12b7c3571c807b4d50239dbd139e012d1c52fa3df,0xe260a42fa5163547f38561143d9e96580e81e96ebeb4a23b4a9f08e1966d3b3a,0x1c3ae5d3c2bf084b2029252c8489b5202793bea369051711709a91147c034d3c),None);
  ((0x3f0e4d74ad29a313ed4d3f32206cf2702b6c37b35c1f8fa0c820f147f780be74,(-0x62becbd44e1514824073a9c2b8502fc6415572a5a855a3673c581a086772cfe8),0xf880aec0cf4df16115de1b5b2de66b1b982afa17cf62a3760684085519722b3,0x14048dfb00528882aa9d65023a36ae30e3b3c2df84bd88838eccda18c9b855ef),None);
  ((0x3fc402de064323959f37290378c396b57f37ade8898957cbf9dcc1aaad4c2201,0x241fbd687209fff44392647933e04f4f1083936a748654e83b847a6ba0751916,0xfe20f7dbaf8ea77b5b712e42688b5c87cdab3daf36a9ce468db9b93c6e5e36d,(-0xd0242cabf7ae68e4ee49b95662af27b413397dfab9c02f1c969c035ba87998a)),None);
  ((0x8f4bcfe22068ddd31ab5815386dd44acd48226df8d5b8203528c0b0dd5d5b42a,0x8c79ef01ca12ac70f993012abd3c130166e1eafe7c0d8e9560bcc4a25d402455,0x5035c8b267b9661cbd097a95def2f66cc92fd2cb45500b21fa5464bd86795a84,0x33d24f107458db1329e1931f184b6c917529ab89b25dcc3e056e15e1c0db684d),None);
  ((0x4412e3fae69f1c831c33f495810c93f5c79425437ddbf83f3ddbf01eb8dcd15d,0x27e5c1ea7ea565dc918779081882a0a58c8f4a1c8f0d22e620d6e452b1103c7,0x121a0a8236edeaed3955efe011ef058647880b0815ead1b46a2e44d73b9ab95a,(-0x3dcd7bd38f3360cd6679302d06023774206da0b82b0d2eee0f29add7c77c78f7)),None);
  ((0xaa436c0918fb7e5399db07bffaa2ba11c9317b1773731b942bfc99a99c781b51,(-0x21fdcd2702791a40aca8a8ea98c11052a96c4035d5333a71f70a96de2f87b4cfe),0x713d9d3e40c6620fee57be34f7fe5f20e82f49299d7668ec54074f770e370ccb,0x4efc247a08fec1e571633f8285086b5e050ff6a7c90fb2e782b026178528ff0f),None);
  ((0x710d2cfebc880bfb929ed48b1e6216ee1905e373c2bebdc88fc132126bb1171f,(-0x96313ecb4d001bf341d7b0118f17ca609653c6eff9a32d4549c01c93ac448d95),0x31eca266ae247115382345f6b864c058af3135248d51e47f27abf84ffeaaaa03,(-0xd99e97ff78da7201fdbb85b4d0c288f916995829d7df8282b709cfadfbb9832)),None);
  ((0xdfb76d4678e8d1a6204a65cc56557ea03fc4b7a1a19b9c36a16d76e2f3c0331f,(-0xcd39da23ea944498c106b3555f77fe80a3eacce6e3c90a9de535aff51f81b505),0xc38113cef38ca445f2c48ecff234eb73ae4cf072e33d30c85c25c5fcd3c1d370,(-0x18a348383473942d7b941a14bb9d03f2232c72fd58c48242028449c52e24451e)),None);
  ((0xe057424a2439be06fe809e18450c785aa452e42a6512e71a1f789dc8cb99379d,(-0x11751c16457e5a250c8e76f430b0adcf7d81fafb32e7220138ad919ecf7cb1838),0xc498d1c0a38ccdb20193cdc4e2fb8e82b7c9fcdf8c35989811e949de6235972e,0x4d0f84f67a9194e2c707ea0b10bf94951b168a68bded84d231675fd7bfd0908c),None);
  ((0xca8ddcce6399df139cd1fa6e25a9b37309badab54d8e860ab02c05475fb31711,0x3ae70f6b31f1d0c6d1b6713fec044f4a796f38d87a12ab6cb631e32b0ac0feb0,0xa0442f134f401c3247df23c184dfb515c0f09d37481f83f43282b14da295ba6d,0xb8d85c5c5ccfc836a5174132c6d327f3e5c93ffc949fdfd7809b64e4d91b2f8),None);
  ((0x744e3d567b6492c41d88350b331250e63d1f1033409481cfad084ab38325d7b8,(-0x48dc47903434b0c146160aa54510b088155417b0c2091850ea77e471ff959283),0x34d6ff80040fa9d00a7bf7c4b20f3d9a726e633437458afb49a9a0ecda116de8,0x1e4dbe504e26b65d1fb7c9994ae8312c15b1643e87fdbf8a5dd20195a5a8b1e9),None);
  ((0x2ad14b226204ea3e2e6675b10251d894d8b94a2e6e37854e1426f330b19013f7,0x19de387dc5be3dd368a9602b66cdd68dd9431bca2cd779da909c21aaace086d5,0x72957c313842ab2fd329ffe4971b59d5d8ad0b0a1c10b11f483e3305a14aac0,(-0x4eb0cbe342accf935746beda8a38538b11adfba555ee3d599425f95fa041f29)),None);
  ((0x4d18fc51db456dcb1777a095c491f770a5bf1e2b284abeda384ac93c62dc19eb,0x25c6d075e8f26c819d13589bef7bcf5a21658b164823aef6936595c936243d08,0x17380a399d2a2d27760bad5c43c88a89a1c1e677cf391d1923c64a96f1f068f5,(-0x2215afffcfb95b1b1fdb39e17f6c4afcde96547fa2bce7fe89ff90f442242845)),None);
  ((0xddb54f93c91ef6f425a3f002d39d5614f545b482c582deccbd61da7aceec7272,(-0xfca5b96e672dc7682f94c59597fb5a87a524d282ecf377450f9c17642b6dfcb),0xc0028bcf88f8f36b3b2c9cfa92865104ea8f183686a31262126119865fe46821,0x86352fb3ad7ac0a244f10728dfbfb006520473970a8787ff5909418560bc892a),None);
  ((0xdf3721981c40f7e752ade7577d5ad3c059039724aca4842100933ba835809903,0x1230f2253ff450f96024118ffa046613355c632d4b79657537aba08572700dcfc,0xc2a11867379efde04c9cb1f76af0a85e30a2407b769d76f2b177b7b0bd23ce5c,(-0x56ced2cca5dd3037b1457894f860f04b35577f39acf11d7ad04f1eb143478167)),None);
  ((0x2e66da5cd594372587952a453715d89703f6cdc0771764a32656ba172f1a108f,(-0x3e2a3973e86c2a43ad3e16a016986faba378f2cc8918dd75a42f9936f3ff1b4e),0x8691fcc2166d3242a42e0de59e8331c78c6b700acad19d303a1e57c25bd26d8,(-0xaba96b6ca1e3fa12185c2e513f009ae98caf555081964243cb710d60691961d)),None);
  ((0x6b1509fd5faa51d7276ca18752cb78f5318b3830db96f8be5ff60fdb9157589c,(-0x7392978acd7327aff4d299a07f56f637ee8059dcc08f17360f494abd925d06f8),0x2cca98149eb875efee55e2ccfa46ba96c431e0bdc3e416cc4f1667a5904cf8b4,0x914553509a40a99bc953ed8abbc078509a030b86bdb76adac85adc41a5e28c),None);
  ((0xc1b0b9ed9de010ed00d97013814a531d0fc77c1840a7b19aa0841c8cda594699,0x182f4b47020eae55272f371c96aba9e27c0067e6fb776086a70778b8f068ee85,0x928bf259085a2ab0a1a9b93d4693c68d5dbc864d388373d5b53123c97ef7a342,(-0x32b572abd5ee40f198604bbf3db861a436d0547666623cd3ce6da227ea1b727f)),None);
  ((0xc2ee99012a740e84052e865f33d3110e9cd383b18abf5d18b30a287bea6c065a,(-0x1325ed8008d1277aec1a2378d7767a0dcf2c99e4075fa292742ab304ab7e0d3a8),0x946e7e473263b8d1c895954edae7a2631347e1f4b66a68bc6e2177a413be7d07,0xa86eb828e11d3744fb23c5bcf492644197b51333f4f087d7eeb696a889ef59ba),None);
  ((0xf5d559eb2562f066aad3a948347f6ca232be32862e90a055ee1bb74490142c3a,0x19efae2d87c6b375085d9fae83f51156601a35941f28797006e8e4e5856976c98,0xec120febc282feafd884d3ff66aeb8cfaf31b5d8dff20007991f857565b5b1f7,(-0x2df8f1bb09225c7453d3bb23cbb39d51e37514032a2c6b0751a74a6be6eebc81)),None);
  ((0x3a170b35d81701aa904b0883d669d3b4ad494dd2720a8b9070d24057aa2195da,0xa17072193f093fdc3f62b50307d598fc6b3666823a85913664ede14eb03094,0xd2e732777435ff02a2f080749b850ab7518c564589032ecf7cc25c49667f5d8,(-0x3093eb12a31a07a86b0781aa49af551a34ec28cc85f03c62ff844e1dc87a67a)),None);
  ((0x34716a27aef726c461f71c4c9498f25d0ace1de68c852de77677816fa2b4ffda,0x1fb979b4cf967e88a5ce3e7447b9c0147d76859aad62655ef500f7d385fbd465,0xabe455f0ce0065a7649f8e6c81d27783db745ee38ef5035a59dc065c6a10cea,(-0x320eae60e4e710db169c932011ffb7ae7f15fbb390cd61bfd85c0b6fcaf2e80)),None);
  ((0x7f0f1191a73bb7f2bc8537e1f6d9b0dab3138ec933019f8a3e8f58c501c38862,(-0x46d7741e95b7b6d1d89e0b4d9167c1eec89eef66242f4cc5e155e2b01d2138c3),0x3f0ff451d34378e8c7055f95f383c66b6eb2a0f0d5d727a8a485ae3c23fcab8f,(-0x3984a07aa2a2d27708d4e7668f9cdb519739a67cec0ec069b67f3bb8eb933648)),None);
  ((0xef884e9262cb17dab5de3cfdb30b3ec98157910d49d6f8c884b4ee55a475849c,(-0xcf6263583e0599a46e85e061952006fbba19301566b9537156a0b061eceb3f68),0xe01fcb49c83d8185386483eb1b0004bf1164e0b24d4a1bbe235f13df27f02a80,0x7dc4f5497cd4d86b6edf2838a47adf293fa4c7ae928a63b5939ff5ca4e8e7d4b),None);
  ((0xdc00183f5144f7bb77b62e0cdbb32980488c523cd540e08c5a4ca9f94ecddd85,(-0x398117bf393a0fa9a76ff40ffb698a2e10f4fee048ebfc0d02f33f7d91b2b5f),0xbd1029ad930aa25d13ed63e5dbdff0994175436c9e3da3f1160bd9b8d26f697d,(-0x6a2e0e321c89413e246346b373cc3d4605dbc973a82450708345957c86059760)),None);
  ((0xff5ed67a7b88772b5a12abde3559cdfc65bd1644b9f8d39b2234d47c3f98e647,(-0x357833e54e0b16e786bc689798cd74f9b44890edfd36830e0da16b03c2e0817f),0xfebe126b367ba92c39ef6a077826223b3556dfe4c89dfb40bad8f3c1d3585266,(-0x574b6dc92a1b124120b4064aa89ced019ecb97d80325aa753a15ea8d6f2a28)),None);
  ((0x831d55af0cd9d778ae74a57a101f39a91a991c641d718696641542ffe094adb4,(-0x11806cb5d0a7d5f83b93c898eea4d866f7227ba03d9397523086e03f3554ac710),0x4327090df0a49b293cf05a4e001f46019855f841bedcfe31a5332a75ec2a4734,0x5c3c95daf14f9c88208020c8b9274cf32aeb0eb72906b831629550045b5066f8),None);
  ((0x4d80feec84f2f1f45e8d2e6532c8b02fe1401173e12aefba1171a42300565009,0x40bc9c483a36f56ae4dca99c6a2a29ffec81c1ae6bccd5e50d6c3212df628d4b,0x1776da5a49d02530a4b33c2e75335314f29fac4d9a5467b35d8377c6b7cb7c82,(-0x3d356ddb112cde9fcd80f7aa43df2ab33e7f97b3019d3541bd910fa0610718fd)),None);
  ((0xdaa5e843944273a1b96ff0fa22ef08dae093f9ee72d3a8a5d4d659fbd1ad45d4,(-0x1184e4fb00fa3f0a040c506a6d008f5e0aef3aed8cb5ade91adaa5b8b51211488),0xbabefb190d17d44032df1792931ca7e6eb09a51861f5ef747191f325141e50cd,0x53725656c342d2fe145694268d9e8bdd19b835bae86620d9017e79101c5ca514),None);
  ((0x5b21e7fa6587358f4a0719b7f24a0be632a0c4926147f67a6b964359bd9b1426,(-0x7b71ce18ebf9e9d606fabf88de6ad5ac2eb42435e7ed805f0ba2613e05ba038c),0x20711f69c563447dc98572536ad5ce8c33ed5ac4b7672147a302c573e55a472f,0x89ee1a57e75b4fc68b97df2b1dd0f4104c0f628b64b8529d55b7cfc8c0f89b0),None);
  ((0x8173b5515b18f456c36d07a589d0809b78057d35363b00fbe45be2c058ddfc01,0x5024f5e17352758ead08eceee6c03b6763aac249ed9bc7cb8bf62d06c6db6b02,0x4175d108a6c8f45f6bf2a864b9003c686b8637c5aaeb7a0a35ec3e09a6df400d,(-0x41101afb25659cd363b7d94f18b2377f2b8a2cfa8ef1b59e92f61d9603d9df9b)),None);
  ((0x4120ee45f0dfbffc5406f318ffb6992a6d5fd742d30354e96dc60da44d0ebf5d,(-0x1eb0f0629cc41f302c0b765989b92d683312c6cab4f264ac6616d5c3d6932ab01),0x1091bd3c0425b3a5d98f7564ac67da20533e320f80e8bb5227789a2c2733980a,0x322e128cc8ffe9a604f8b02df618802a8bcba29e3dd678dd1e9d5cf7b721fc68),None);
  ((0x1139097d931db542104c09c5dd572dd846ed6e13fff8713f446eb978518dd588,0x19d5ea971b461a0d57ddffba7c184042f21a0f008d85d061f04a41c9e58396c8,0x1289ff7e8f827367bb1abace7329eb538aebccca8976b56cf6a4be7ca9438a7,(-0xe1641a83dbf4050b4a51beb5b5d4ee103d9cccfbd5efcce7bb44e5748c32b4a)),None);
  ((0x47056b6840ac33347b2f11cf8d35ffdb0e1a2b43c465e485071ba0206c46f3a2,(-0x26952d61368d28822966f15100cfdb666cb7520c2ab29299257c7a0ec1a297b50),0x13b401b146b65d56de714e69efa765c72e571afefc6de99f74a610b735c8a236,0xac1480647c5a692536f5427627397d476499c6006af00b99c503ba51956bdde),None);
  ((0x9fb98acc9585b373c8a90ec8524baded69ceb436cb0791bf8969ac3fe4628deb,(-0x11e24b7b2dfb11d06d9c640c7c0bb2553ba76b149ebb7ecb6c6dd2276b145cedb),0x63a800e46c5565be032b272497a4a6aa7af5f57be3c8b16406b945c5b8da8dde,(-0x411c179aa5060dc4fa379f4475267232d1e3dc3225a3ad4c81d8cfb2c98bd79)),None);
  ((0x89b1463a1befd83c14ced75e01358695401389e53ae8ae55863db8cb7dd6a47b,(-0x16f77781f078c23cff9f39c4527b066da0151995564695401f446b8ebcb520f84),0x4a0f37ecab94637d88daa305f94821b4df1bb92c071ec55a9507d28e8a91a12a,0x420ed21e7896da289c94cca42c4a425f9135210cf81c9ab4f7e62f5ebe967b2b),None);
  ((0xe19f1a7e5853ff6c51e5a935fb01665a29a3f474ce6354382056553577c560be,0xc4d4f052ffcbb61e6635fd18470d6a399a96a8b84e3ca35b659a968b85869d34,0xc6d90f74c9cc5713d48200c57ad16bb6365195807d06682298cf3578703dce8b,(-0x5a71f9401a8c0c998ba2ebd3e71556ad1d3d0d6f040f5f6bd2d9e6c12a0382ce)),None);
  ((0x987f13515ecdda315424c5dab8f71290f34f338d008df6e4ed5289afab30b7fb,(-0x1183085d5a6c0eaccfd00a132e0777815fad09171e433203a30901f06fc289982),0x5ad72605279cd74d8d6610308bd9a0f2b7245f9bb1a09dca5a1d568ecc2adf45,0x67c4aacf53616b9d906bf6116e129ae936bb3959549fefcfe224db4d37884010),None);
  ((0xe28a5738d81eed433a6faca9c96b9c56216b4e8a6cf2eadb366710a4e02f2ec5,0x190bb99584848d91b2aea7bb5dbf35f127cac676887bd48793d9cdd50c50d31d5,0xc8788cc34d0fd8894d7f2c4751991e5f4c7cb8a89fb01ac5fccab267335b0c02,(-0x25a52637d4453f2a5c6be380a62d75418aa09dcb2f82378e8c6ddd43031ac5d)),None);
  ((0x57329a53b80b26a25567325516b703bbf98edc4fd1c413a46f922d9a7e33d1f0,0x790739f17df4f20387aebcc38e0c55e80c74ee1fc3f4795caf96d89f988a8278,0x1db36ee5aa87bc51405031fa507b03b4ae63abf7ecbdd3504943e76a5ea5042f,(-0x11ba0a4da003e396b9c02cd6d857f046881e6fa75013a52e9f4a2ea7441e4872)),None);
  ((0x31f4642ea5dcd28766551a9afbfb9808b6c2b7092ba9d93b89f08f4559ce5bc8,0x985e6a69481a89d71954d316d4342c7d837eb39de602d0d117c9461e8e8d550,0x9bf77a9055ea746ae32ac8007dd53a7d6f2b315405688fd6fcf6ca05c0105d8,0x79cc0fc33feb0baabf824e89edf91dc20e122134b6a8175a800f2debf7a7df9),None);
  ((0x60835709c1e53090a3e88139238956acbed1d747b6b5191f37088858a778063c,0x83b24f128a9b220312d7d2bace215dbb56623f95bacc8bf3cba4cf214dc0b661,0x2462c4a9a762bbceadf13201b2fe21ee784e7bb708424a50f1ba698d7e9585f1,(-0x22a87100d849e932dbf93c95abee81f4bbc5ee814326dcdca3e2dbf97a1a0bf0)),None);
  ((0x24b605a8127cd0ba15669a0685e90c4492929bd4bd7e85379fd0cfb7537ce808,(-0x5dd76527233a6c02dc3056ba1a488c1f8c2cd94876706f4b4c4575d686f14a68),0x543b303559116419437afba37bb092c30eaae6c73ae76fdb5ed1a1b41b965ae,(-0x99f89313edb41023312c184491d6a2a3c5acd1045f9bdf2e8c43205ecdf1a67)),None);
  ((0xe13682b309f8cb0691ef7388591660292c8a5a5affdb52650c5a712a43b864d0,(-0x143b5f9e32b657679d830a674e61b7eaf9a2c624d80a08855122d54bf2bbf9653),0xc620dd5ae3eaba88f1985ec031ff9b83db1a7b6a04778f5e3ec5b663bcb0c6b6,0x80795a352f2ed9741748ec2fefb42d7a6c88e4f7d9a6a00d8a3798e9e97b31b1),None);
  ((0x71ae07f07c9178adc4e8b1b9bbc13f80834b46598a8f2f105c544263ed6c5f62,0x7cebf70f8b749f85506bd451f83336e884456e012597ebfbd66fb98059e652d5,0x327b19514b9be4544f26ea62c64a19a7fc6b94fa5db27bbf9a9b5c22d24fd253,(-0x315bcc643afee2b0045bfada0a3e775586eb8c4f4c1392f73e6d34c7ee499391)),None);
  ((0x715b7e81ce4236f5ef4837b4b86e13d1a9b57437818b6aab8ae55ed9f3297408,(-0xab3cc37caf13fa3c321cc4909be893517ed3ec7243aaea1e3be111bc5d0d4538),0x3231e661f91506d4a9fd1bf24386b2a6ec3fd56ba80e86624540f3a579142b4f,0x238b26d3b8b4c961f46e1872791272cdf93a4a4726d8246e4d4eda98e7ec1284),None);
  ((0x547ae472aa91fc803de755e3e1f408d44ce30b5ec0e6d9a4247cf83701db7d68,0x5cc8f7e0e009c18ee40a187d57661059c6f1b3b2635791a5a3783ee235edaa90,0x1be0e0e9e4f7b4f301612bfa0d757b1a119947e6e769d0395d555685fca42b73,(-0x1d6b32856609dbc945ebb4c7d3dc1a04bd9840aa3c4ead41a1372f829a8582e2)),None);
  ((0x3df3e6b77a4431723a77d513db2a5789242848efec7686876fef2ca6385ef625,(-0xc3d1e40b23ecb5f6443afac449caeac7f59bcad41c72e05d20e8871412d4a574),0xefe24534f82f48c1ff9eeece2c3bec7d749e8493003dc6450f71ed9b79e1b71,0x1682c67182888d8ab1c9f738ad06299edb883977657ab780ce769ac4b0d122b5),None);
  ((0xf495f958ef16be4ac876c8b1254a767b14fd376816faadf6241fd68cdcda5c45,0xfca1b493308c16cd05f4705efc7e790c8711798968adb2ad05fa9daf3f6cde3d,0xe9ae3b2ea5d606654a735ac3ba9699c98eb97f55897773f4d84368de9e203661,(-0x285d6c40c1cb0e9c9537ee6d242a16fb7d1d1d7584642497698741109752ceb)),None);
  ((0xb7fb27bdde87ff61b2afd9bbd0930767cbc1cd4f403a9dac55450d80f5b7aa7b,(-0x17aeb54e2f35c178a73d4a62f71b48bd7736602c6e2e953ccb3b26e8625ebda9),0x84390938ecdd3da4a5bf046b6914eee90f1e44bc54d0555334ad116bf7f14511,(-0x4069982ec304ae62b0a4b6d71d3c0f96f415ae23e699d768b67873afab1c7ad1)),None);
  ((0xc45ad7c85fa6a58b7d12729bdfae488ba64087dab9669071ed1a32bb519126ac,0x19b0c659cde1276cd45109b0c49c995ec1a2795e5721550fc350e76f877f3a9,0x969b3aa7d7d7d6d0c104de013965124cb859addf57ff99576d67b9b7396e3fe3,0x3c75c934e62ed879f45796dc65c2e220e89f0acdc6c6f977bb04cabfeefc9d56),None);
  ((0xf3053226903bb6dacfc2acd5102bdc7183bf033d615613a3ac1eda74b6a260c3,(-0x1938dc7641296bb04adfeab540fa2ae156a7c47e4bf1afbeba9e2e1ab6875bac),0xe6b2dd511bd8f2ef3688c5170636e28a85ac2dd92a5b7b429a455eaee5d53656,(-0xa54c047e317c7f7868b828e5590bc7fa96162c66bda6a3a604289bd2f0a05291)),None);
  ((0x31f3958d0f3dbd7bed040cf4cce518631539eaada6d39faf18c4f5491428096,(-0x2ca97ff5096e6038131259526ad43303d2bd62cf295fbc303c08a5c7c4699ef54),0x9bf27054abd3a3c147add5f458b32fa432de91dd1f106c194c7dac694ed60,0x112d1888b07e55cc58985a73cc3a27794075b3a4a17d44c91226a0bb7a28e77),Some (true,(0xb97bcbf7aedf4947885841a27a61cb41cb81d48d2951362ae4211da362d49c0c,(-0x25a176ecc16940a78e20942a8e63b1a03a43937492c076986b5f474977ef22e0),0x866428aa23a7aa1c739b39c1464e39bcf38de26b0fd7de6a16789ae3d2f5d01f,0x582eb267c303f5f4ca2266a2f91a3a9ff7154251a58d873673c617794ed27c4f)));
  ((0x680225869b890aaa7fade33f923a1dae04d82efc3010f0bbdf1abccd22dad2f6,0x1587c8ad0f08b41acdbeee021388103d6ad15c39bd7a76d4b19dc9ad64535ee4,0x2a41be82243bb50d7b6ced935a43fd313867d0542521c34689b4714f97e06a5b,(-0x15484f1ce4897aab138f60b99ff3c4f09f2fbd280c025cc5b3a21291eff3867a)),None);
  ((0xc013308a652d79ae6cb3bc05ab034834341e5c8606b5f7de83046bb0719fbf74,0xdf33b0243e5e010b793f38efd606ac6409937aab3c215cb50fad9705d0cecf78,0x901cca4065a03647d31aaba6120dfd8d4ca5d3586c6108188f578b65584e0338,0x208cb899afd924acb2193ea451a32b4c028d11d343d45d0156f5720c28faef05),None);
  ((0x2f4d9cf0ce71c87cb54553acabd9fb072ed4f211cfe1e6451735b1e58f3bdd64,0x2b223dce644581fc4c14becd3c73998b767eb2050864a260f92e67849cc91a69,0x8bd97283d9ded5702a00e9830c9939ce799cddecdf6fc614efd94ca69213d91,(-0x214e13dab1b93c9e46031945f8b5f702faf63a6ef345201832217fc7071c0800)),None);
  ((0xc93a881b0672ffb3fc7284049dc7ad842a3b5b17ac88e348306823ac9d78fd33,(-0x1dabf7622da11503ecd8979efb99305d2f895e51818059a61a7f72acc033ef6d0),0x9e2cf71d02e9327570d1366197ba1522b131975503aecaa90197749806ae26df,0x5897fa0dac173d469f5db22c5973dcf30bce2a0c896ec3c997b611624c80b8e5),Some (true,(0xce5b3a57f73d725eea0b164122f890acab27c67234b204b3d15474d2e06ed38,(-0x57440865e91b86b86a635e7b08776d72288fd523c3f3b5c5dedfb25a7652fc),0xa656f268c0139669fc3f3fb6d856ccd4e342c375d4f4a16913235074cc2be6,(-0x1b5099bcf706e8ba70aec5d995d6dfaebfc95174dd05619901dfd8fd6c651d7))));
  ((0x674be996a79b1ffa91230f8457289247595753941f964900da839dfeaa64d097,(-0x5ed798117fe9b1d40ae6d530eb335e840513dcb32dd1da1dce1f262bc96ac441),0x29ae2c7a17f6cadb839f36f58f715c6ce5d3a21270e0c8432d2e02ff88ebfb89,0x2a53f5694fde2d3b2e9487043aba00177917d20e2467b1e5e9f2b953a26d7595),None);
  ((0xee5e7e6600de627f082365e48c6f6688ca2c9ead6d077753c293089bd937b41e,0xb2d8783ea3207a6045fc78db07f4c0ea23b762abf619a916c6f742784ca7c981,0xddf3d5e798e289dadd86c9d35c544f749aa932362a52c55a7872d9f96e5bd49a,(-0xb20459dcd85e9387945853e86b300632f7c44ced837faa8d04e1a66d1adedd80)),Some (false,(0x373d4c333ce2ceeed8bfb1c5c322c1643ee0622651b5110f03a3d647da8f469e,(-0x1b63ce002b1ff1b284c55e70ba0cbb4eb8b9d97abd5c6a5158349779de6d1185),0xbeb656b772e54d4a5eff6f5095da1e8d59650a4f585e54e4c391995ba6677f4,0x2a192fa6633259028142f51ea45d6b64848aa597ceceba6d1f7179797d3dbfd3)));
  ((0x9c51917ebf299f889a4a60b8fbe795bd7e95b1e228af3fd9f4b02543f26861be,0x8fc9c2cf792d3b8abb96646e352507375335fa642d7ced58ec078c484420b2b1,0x5f7383503d54096330cdbb1811bb7ce89804be53329c4c233257dc508b81b7a5,(-0x58e196577dfe31eb4396f5a1ae7cfa2a6165c60ed53e1a8dd0121597b3b7c290)),None);
  ((0xb9ae35e128e79b0fb8380b9f2479bc17ef6b7a7f20b6d197d2c8bcc0e99b7806,(-0x5e1104f3bc09a00d8a4fcbe88deefc753c22b2ef83c7852365ccea32f77ca48c),0x86ad406d3d369a590c050ccec30c4f7633472946ffeef8879a6b0ae4914a6a6d,0x3554f5320c895dc40ca1dcab3b2ab279d41eb638c2f05a02983872f97b99d129),None);
  ((0xa27c68f4b474e31e759b15cc347692181895b9fa84e85a91b39cc301a685deae,(-0x5a0f78b500c286b3589eeef6cd82eaddc6bb428afda9fff3100a0d069d9ac0c0),0x6721b14bf39c2e819562f968d5d2d9f3597dec8cc65721a5ee69534d4191b24a,(-0x316237ee107b3ccb511412ed97f6cccac5132ee9e7d10f40ab7e414858830604)),Some (true,(0xe780342a011707273edb3254ef9b1bc892845f587efc57ac5d77f0c62873947,(-0x49daaab8c60f3189a847a6057fce2447c0ca0ef2518d61d65745539ef6a54be),0xd1589e58d3f25b9db3bfa7d6c14405ea58cb86fc0541ac2edd758be388abc4,(-0x32ab0f2b1e87cb48ef0b31f5aa48e8f51ab878cd4bd1d25807bf5e75ec8b396))));
  ((0xaf4aebf985cfa16ba0a6d619d9a6e023514f5bb08c62d76b0420577c88407f52,(-0x1f946271d22e78da701202270bc0cbd3ce4f049b6b8108b77dcbbf08ba6348a0c),0x7807848ce2bece27a8c94536fcf21b719b6909f016d2094692ce9237c9127f83,0x837b814b61fa182914546ede7832ab19bbbb40eee61ef6c71a5a3ea52d0ac701),None);
  ((0xad5555a05bce9b2281eabcab4e0aaaf83beca658b0c6b730bf3e204f948e8da0,0x2280e9b98a1f1f17924c33c50cb6b95838d371749d2d7dc0920263c68da28530,0x755c722d2a92887673eafd9af33311249de96bb4fa48dee0a8c025c5cf2ded27,0x1956c5859be1935eb44936078b35596668c7a2ce7c3524f8e1fd267e54737afb),Some (false,(0xb243199fe49f5c091f241dd5f73074d6f9defcbf4f4c92720719ed4f8bc9c6a,0x3fe22cf0b72af7c772ace172d931bc89f8dbc5332ae8b5f1cb5b4cffa58ab6a,0x7c216139425147248c5ec6dde460b25952e2f2ddb82deed39141cac241aeba,(-0x1a169af5d6bbd065724ecf2fd70fcd3f152abcb67a7e3e90af85e3893b9c892))));
  ((0x4f9b3dcba0acf0c1d8abffbcefb58ed9f156172e5cfbca860d1269d97086babe,(-0xf0d15a2d597fa99b2929a2410791c47e25444e34da00a3ad04f92cd5abdc584),0x18c12e47a96b28d560fb592250b25409da5a641a9e8a3de838ecb7af8da760f9,(-0x3528176cfc2e07991ca9c4bf676aca30fde63c0c26079ea68b265e6492b9f7ba)),None);
  ((0x6dea7184272f86133d335e471117e0d969d6372b15bf0842745292bd7c605513,(-0x193de9db9d4b05341989e6acfbc1f110b11a01f44ca035bf0ee184ae02767ab7e),0x2f317b5e707d853c21f46d996412b8f85915788f7ae8319a06bda8d0f73853a2,0xe3761a0126940b92ecafc960642189629d17b14e6691904a662aea1b9ef6975),None);
  ((0xa2ef83f07ba7f08de49ff3f13e7b737dbba4d9dcda145e03a91454516046ddba,(-0x9768dbca455e7396b20d490400b3056eabf148bf8975eb4e1d14d1cd27be95a0),0x67b40314633b7390b0a1d53f915bed0ecb34d48c1ee5f8819cd83b590412d51f,0x1ba4584ea6c01d0a0485a2425bdc99a83e04a8dcf5612209620a90539f5a54cd),Some (true,(0x96bb79865975b582b7f5c69ce6e4c6e61981dea2dd72bf2a9dd4fe6f19602d95,(-0x179ffba62be2b98c29841d17191576dc73dcd340cdec0874a37cb194df536c46),0x58c03bb48d8d25739d6c54a250cffea67195ded34011c4d3da30b0ac53094323,(-0xec8137a956aaae0e3360f0fd58b4810c02579fb1d976a58702af4823c0aebd4))));
  ((0x5c5bca7884fb48cd2047ebd2f3775e188741ddd03981d460b046946c7c38a40,(-0x158a162926d1645c48a85ae76e776b94075e49671d0013fb8b04f77b90abc45e8),0x21521a7052b7ac02e1fa472efa0afa6665c40cfdac5f3ce36ba303db683736,0x33507eedca3d4706d5cf020cd4eb4bb821a99a13eb78c4d4256b1fa016172b1),None);
  ((0xfde6f471b8bf1468f3ef182ed4ba9cba68f628abe10add4d3a3c85f3a054ce8c,0x6cb60cbc1bd27c0cb35c1aa657c664c7a0385ebbc826aa1604d1b18f396a7b6d,0xfbd24f85e8bcefe5e892d9697885e4270808545a30eac2691859db22c796047a,0x4781afe98eb845a582c02f2acf420ceca332eada1afdcf7ece7d4e823c79861),None);
  ((0xac8641eb2e98c496715985c39d898462a9ab59308e4c41b6cc0cd288ef139f2e,0x10f2e0bcabbb861d3524c139aff880c86d9d68117d8c90129cff742d9ce0603ad,0x7444aefd8e1004cd3862deda396ef7667cdc0fcfc4114f921ca234354ce6d33d,(-0x65d86ed7670f3c5d537bd037f18eb9d786800a321ab63afe03978af48afa4888)),None);
  ((0xa8a36021ce348096cf87a37cef42efbece54c0aba78dffcc039366bc31b92e9a,(-0xe30ec67211cb1c6ef0bbd105ac71587cdd5b6d69de891b26a9b6fd3f128bc5cc),0x6f16d6705ce1b52fce4bf84c0bfa6942d7076cab71b13ddbd8cb159de33e6426,0x3f74020fe4ae071bc2b808506ab0155da929410190ca68c1f1453cf56dc14101),None);
  ((0xf9aff106e25d2c8ecc87ba590eac4b975ad6e6162db71c2402d1c26d8220923a,0x9992352cb97927a703dab6e15194025077c11d54ddbee7ea10d9349461c526c5,0xf387bbcbc2386e3e5637f4e34426d0a6a0a06cbaa9ec0c7f3493b5637ace2236,0x35248c396e17f96bb3ca4104845039a8bac25ee96b8260029dbaa8beb389571b),None);
  ((0x4cd7a986012b570b6caa53613e566d02b2400633c1e50e38aae7b261f36c37e0,0x1fa8f973f785ac3301625794aa1749e314bfc8598648b81b1ebb7901780f67a9,0x1710c255d71aa881300d213839fac6f42b49c769c63e408f6d09e3dfe10dc83e,(-0x30a4391e9d5ed1a21988f34a50d67fd671543ff9a1b60d79c84179c98c588649)),Some (true,(0xc096c06fbc4b3b55209f7c34c9071fc6325c997b22b7de7eb9f5381efd6e4063,(-0x3cd2c633f2d48ab0a5c8e626390272a53c582f0c456af2c4b7cfde33672cc8e0),0x90e2796e3eebc5cc93767b956e199254e5c92ddd4144111bf6e5c8eb5d4e8a67,(-0xff8c708b459333e17d3f011ca8e9024165592b9e50eaef9c7f1bb6d0c2ed510))));
  ((0xf0220ef4c024c40dd8d00b572d94878d2cd3ad5f95d68d4a4af8f6faf75a724b,(-0x8c3a85f9f992ac79fbebf2e3769af275ad1fb8c6aa0f28f503b8c220a477d113),0xe13fe093c36788f3c819be5f0a6636775cd1195ed0a76d1db792c970b215da53,0x79e3b22a1b3666b67403552f3c2d070280d836fe98b56d967a098bd3775a819a),None);
  ((0xe4922d5846656857c33bd1c038c9a3ffe346ad01fbd9af8f05832fface530157,0x124f95ad591b0409cf65c6cf4269edd28f3f454954d3412f569fdef5e35a9d629,0xcc14b43dca31c8f475bc86c50f5ca8ace751fb9dfba36e6d5d62aa9f128ad2c2,(-0x79038ff05e38147a85f300a8bf8f9a2e266e8cb10d7a85e94e759c89ff4ffe87)),Some (true,(0x7202c7affc7a50bd711145abf2fa229cfb4fdbda1d739a1de9c41cffd56e1d91,(-0x2ff3e0b55cebcd929e9ccafe100618e53b8513c3f1fff4a63c116dd7a60dcdd3),0x32c679e0aa266f33c4cb0dd4ca4a7eb052ce823a0e07d8c894bda660098ddd02,0x5c1d2972c0bf8fc0b79b3f4fedc8a095afdf4bd040ef53b74c39e927403f29fc)));
  ((0xd57c3228383fee3bd35d0e7e333622b0b4d3bdcb8adb02d46115c5f1700bab27,0x39b5a9a0e54f74035f2b7bcc138f916e3443ffff413732f5a7c1f1e2f7a2eb9f,0xb207e7b8406c84607f78125ffce11cbcc6d7301a18f4a3a08dc3aea9824bae03,(-0x64c3c070f30a5f35396d9214a72dc2fc12c64d466c8ae1c76df40bfe6edebb92)),None);
  ((0x7fb02d5ad6b5769931f71f77184dbf760e8efe1d2218b3c9bed2e38f2a20d744,(-0xdd9e4e71a3e7ec19eb5b0b9704b0bc448124f1a858771e072006be59386944b),0x3fb0463ec5a89b250f8d5c1ac5b0b3e6b613a610ac2b0aef9377f630b2f534c0,(-0x2a4dfcccd92a905b4ae196dedcb350132966f6ff2b5ab487532f6cc5ee1fa644)),Some (true,(0x9c79847a323c07fef93227cc226f7dbe65faf0fa1d91ff0cb47026b0d968576b,(-0x4116a40ce12dc0bc4888b76c1d9f369cc757ccf58d9612500a814f211337993b),0x5fa45323ccef37c38f59a7bec14fa7567d96deba64ea52948dcea8ba0f2038bb,0x72cb2ff65b8a0f315b4d9a86809553ae19b5f789318b0972e61de02d34dd6018)));
  ((0xd7cd460258dbe17f6fafb7235f8b793160e6dc23d1b81ffc9b5ce47c76825e8,0x10ce9e9d3b2c5d6a1afd1bd7d5902c81384e1349c818d22829e6eeae485770d9,0xb5ea7031da135dba1974118602dd59d940ea3e02de835ac3ab8342351fdfca,0x8a36af6ab3f3fdb6477e939ade4e2d30835f016871b2c8c03048c9dd705387),None);
  ((0xd60ceab94be498101daac78a48bb92f6819a557da91ee10bfb44c7cc1bc5b148,0x58f6babefb0e55b8ac04b67712370bd441d434391d436968286d26bb4dc4d909,0xb2f999155672299a8375d8e2d19b5ac338617d8044570f8040a332a86aa6f197,(-0xbae762914317be196c8327378ebd3b7c2baa8314df146566714d2459d907a234)),Some (true,(0xaa00181ea0a7d6c2b8d6504496d275de8e9e35a851015839b5a886780f457f06,(-0x57a233303c447c16f7b5ce81976d508233284685b97ad5f391fc207c64521b00),0x70e420092088cb0cd18e606797dff35699a601ee86f00d8cbea98f7a0108f5c3,0x14210ba4ef30b5fc97d7112df2e7322ef1d3653cfa8a9f61033b2a7cab32032c)));
  ((0xeaebe2565498e786f845ee6d0ec7dd6e79bcf4df8b62e0004c5c1b46c5808850,(-0xcd03729f69b51111e690eba09b9fbe66e9b2999f24c95a8a7e264a95cadfd497),0xd794131ffcd77595e0699b079b5efb48cd10d88b5211969b1f193f721543d1e3,(-0x1d6f6a8f93ac53769623764168fccf55b11a3761e855d44d263e7d9f6de2a2c)),None);
  ((0x9961ea94f4a8698e7727df90818947886e5e631e5fbc7bc11129c4c7c12eeb59,(-0x10dc2c107ddc076651e2236f38c31327e6531e1a5830caca7bd03fe062699ffb4),0x5be62fda042d8b959e2f47beb4cf3d1f1f1ee6102453ae4879313804461c4b77,(-0x183071f66d9c5f68c1bcb482e216882ea0336a07c4f8731ca8ec5452bf186d)),None);
  ((0xb32d34e92e8d64a5cea57e780479690f4c41f4cf32cff51dbb23909133be787a,(-0x16fb177b1e9785532eab8713767e308e440c77a59b911d49ed12239d7bad1cecf),0x7d683ffa396be7be34056cd74828e992a49a195191ae07a7267bfea56ee0b6df,0x90b2097980a4c8a7b8b89ee73d879d27fc100d17bd48ee7bc5dfef70d9a87078),Some (true,(0xb7b274a006f00d968e9ee496ec5d28c49e5b47f8aad291049d52bf94a4326beb,0x49d9dd9f9fdbb7e125389d8ec3094a70dfc22148926d8c93525e7561f17f798d,0x83d09f23b166e2b58b6d5286514e542db608486fa6487a2689c23cc1a503709c,(-0x3da71e9d8e55a936a4869b2fa352f55af8b5f5526f6a2f3114d3e29e98f69089))));
  ((0xaaf7c995942e22201475109594191f23bf3d4b4f63b69f5f9684b423b179126d,0x2dd57019f945abefdfc5c5b9c9ad2f94c477b841b3a3a36cd177c84c47bcc125,0x722e0791b85b7800004fdd97f554face7e6e9551799e1496788f6a3ecbbe6952,(-0x4229b73a1ebe29139a24d428dfa1ac37e4d6849a51b01dcfd153472d06db011d)),None);
  ((0x7fb01affaf5d0f5eb8e5fd457da10d40bcec18a352476a981882fddf286fb3b0,(-0x16aa3898b70351834bb9a8d8e50207eda3e3d33fb5af6daef6a320ef9d69897f8),0x3fb033ef12189821aabf0ad48902ad5698a23a845221aa8c3643937894e12dd4,(-0x43b76097555f0728646796a30229d3807d64d46ad6492959e051ac73a26a1c5)),Some (true,(0x7e1e4a7f2ef33843cbed77e41310287065eba83ecfe771d992f8c91891289f3b,(-0x2c9cb0714635651d4ac3d9ee5bff450658e327ab9ddf7f68b5a600a3a01198d1),0x3e21d4eafbd607a2e4cb14da5e767333b0c956fcd57c21efa474a5b2d285801d,(-0x8346365855615f1f219d7582a27f718fde82f120aebaf5104c31e9f38c30b7d))));
  ((0x4a370ec9fecf54b22643110841d65d9b9a30cfe56c3ab2a83ebd00265554fcda,(-0x1fa1f29c05a4670fe780629973c0841fa990b3041c88c57553c673d90135849c7),0x1583e0643879f1b25217d7e334741fed1161b425f8186680da995f0a7e074238,0x3a7c200cd2d70377ea1d79ab71e2fe2596168e089f8759cedc4255fb57e41899),None);
  ((0x26021cd70550e8cdba42f3e607e8d47fc17e9f01548cf8991eb7ea0920d2a1e2,0x40da1767fa8b0597fd06b1e20221699c764bd760cc23911ad64dcc688dd4be99,0x5a4a09451d478b8a3a2ee904b2040f9bb63c30069221b66d2ca21c310bd75eb,(-0x16eb00956d47f58278cd4f7f0242ceb5bf0fb20e6f8fcb001ea3e94a47e52dd7)),Some (false,(0x2def9b7a035fca5c5ca4d2629525aa72cd247734826468a96100c57d13b620f3,(-0xabc65922d19ba29f20da8052c4048b326370e13a90ee89e62aacf105410e1c2),0x83e1cec99ad112a18d9fcc2da390f346cd1a7c92fd34b6aec67438b495c1d5c,(-0xe659286613beb262de019fdd2d63aadf3bd2f9e8e339de4aa921be3d8c99295))));
  ((0x1687868d0c3c942a86f6a2f6bc2b0b0014da5b25d28de6968dd58ec932777ea8,(-0x2bcdff98d28aafc766ac9422af9d3d9f1d501f248d1f4a840aaf0a1e6dbc704e3),0x1fb92df6f90dac0e80f7c6065b1e3b2b40a412912271933f6deb4685a8f0646,0xbcae8c2b5400cd966afe73f6d292cd8ca926f72fe6dc4667b4f49a28cb34110),None);
  ((0x2e1d6d99905ca613107ae06ad50b69ee23145b1a91e4afb8a2ca74b9207129a5,(-0x411c4751ac374cb4e3ad741c2eb6094892662e993d162f38eada30a6a2e37f9b),0x84e96c53be6b87e73692166063cd041d209c549b4bd6ab6c00263722f0f0318,(-0x149c0b53e078967ace8ec1f298d84f667226511d82b871bfec0d9f74517e4e54)),Some (false,(0x27017d11d4c6232f17f307bcb17cfcdddb5277532c1db5d7a26b069642824801,(-0x125b42bac029ea193b65a9461c725ccde4d801d4d0b5b13f500a7f5e9577f533),0x5f1741dac03e769b7421cd28dfa73c8ca42fdafb1bc2fb08fd6b2f4ab9364f4,(-0xde616be2b6b13f24c03e8830a968e2e47f1caa8429f7a22664661d92fd80de))));
  ((0xe7ed2ac716b9238ca020ad0ecaeda589291da236d6727446b8783a9cf49e8c9c,(-0x274021e57a9364dc68fab3e130a893a4dd69ee6057a4ed9df5156acf2bb5a9d67),0xd21ddeec58e5fe2837a755393ba8a969a56da09e8656c318351c63cd92614ddd,0x74be6242166f25523ff84e71c0bb290b98beaee40e7b1637e8bf5f33c56bc8ce),None);
  ((0x179440185a766506da237bf7ded17e28e244c6fe2950c5666c0ca76bf14bfa09,(-0x6ebafa0bf8b2b88562c5ec4f016f2441efe8763a880af8793ed0941bab31a3d8),0x22bf95e8ea207f6e0427c0af2775d0b550784670787d3341d1e36d594ae97d1,(-0x5445c98adfe899234f47a10667d199fb356edff4b059baf1d4397f69971fa49)),None);
  ((0x68527f6feb1c85b31c9f32a00511b66694abc9192097ff368b5274950771c2e3,(-0xf322935e6a56336d2660f9e23f55285986253533d4ecdae71dd3f52aaee4013b),0x2a832220fcad293c077abe969f4607861361f6b68e41248b2d533e8474c45a49,0xeac2b062a2a4f730e7bf0c7b2d9c06eb4c3a35f7ef27b7d1fc92347f80a21b),Some (true,(0x96599d4ae2b7b0b6d0017cc5930b01086e530f9534b085c63a8d2f63520a33d9,(-0x1eafc68bab5343963640100b034e066dad6b3ef3bdce5da5ef90e907735481db),0x584d23b2d8b2fa7ec4ff72af307ff69d370ea590de178849e68818ff2140d36b,(-0x1d6288b3978058b96ad6e527356810f8812008ce6c988676cbdec9b43cbbb65d))));
  ((0x328311006166da0e2d955527c15989dcadf4e3fd67e2fa1041c595d4d5bb5318,(-0x1db515376593480fcc76cbc5f4bcde74b73cde5a6bec0fb4a1fc2c1391b2bbc53),0x9f775be97885f1f0fe6e21837784a17ad5d334f36fb30d73044da13279ac145,0x1f64937ca904dee83b3ef36666ccf1548f345fa992155159ce1095b89b1083e9),None);
  ((0x7e087002e55cae077c9697c99e58a03e348c2cf038320cdadba6fdbdc2abda18,(-0xf058bcc778547f603caaf829eda316728546f76492c7289d3ff96830c62ecd8),0x3e0c4e8a4904685dc54c56b0188100ae29d3d83bb82ef8624f2b6011854f8387,0x16269215d28a2d8c39d0be3ec7aa4d5fec9d771c0f858d8142441aff0009273a),None);
  ((0x874749fef062abebe4fcd8d6de89523c51b44716b020f206d464b45cebd0227d,0x20fec55c90ffd43411ff6c9a42028f5994f46701565a13555fefb548aeb0a58e,0x477c43e549d10eed5643550fed29c5c6a069db1128d46c52af74d9a18b0a9c6f,(-0x50846e759d1592ef1af967af77c4dc8b001aab604c946a3e610db86d423bdaa7)),Some (false,(0xce6a70e77f583ad3529c9611f8a2e617769ddb2b2e549bd7eeeb66e814bda627,(-0x28c41790c72e94a77fca93db2a6802c3f612c96fa4fdc58cb3252d4b73616646),0xa66f79f6e8e24e775672fa1fe543e3475a49bd39e354c44dbf1209417dc28d1d,0x13762f0fe6b5c9b632a9e02396b66d94e1d18d47f83352665ef19413b693ead6)));
  ((0xe3a00db65a6f050408d9317baa0f1567e829afba97621d77148591927af2e326,(-0x979dc646c0ee6ac93c8e6ab983d4e77ceca67d64bd54f378347cbc5be897abcb),0xca653c6353733121f219fc4c9c7c94a3a774776957e5e1bd797a5cf6a8a9ecce,(-0x3e3c41a97003a347af8c66f649a210e9c4c04ffb080cdc6dec356f43a01cf24)),None);
  ((0x8051f6daf0a28faabd7202a70ca45f29a9c8ce0564bda201469512ed15bfa3fa,(-0xda7d8edf1469c805f2a026c7a7e0776231191fed5887205a442f4e033d08febb),0x40521119558a6959dfe044894fe385f4dab388ea25c1e638ce2b1d07b6d093e8,(-0x24e265f3b56ee6d61c6f6d0bc292c343f688156941fe3594876e7fd0d67ab89)),Some (true,(0x3e82d8bf2a6c08009c38da5feb60152b3525ee4bd09702fcbc81d8b3dcaf9e73,(-0x8a49e0f6178abd0a455bed6d967e940c025b835088273ad785c368018d24d06),0xf43a3dd817a33cc803d5c333f8ef9f4312fed5c277365a667eb2c8829a4da38,0x14a31de6ec765eccc3d638ade51ebe79fc58eb05d778ab5f0749d9c310b95490)));
  ((0x741f8aa350503ea01341866f871b5a14e908c03520268bec4be17eb8b459909c,0x507ffccfc40459759b8346027e9f9cba61c2bceaa075fe1bf55d13774acec590,0x34ac99871417407cfe89478ff5ade36acff6a10121ce5c6a8f8fd59d2aaeb47c,0x120597d7a4427beb256030c4b8180f36b15058e683495f75961f362e0f41fd49),None);
  ((0xa9b85f87e96dc150a3f67e20c15e9cdbae0d48f1c0640a0e47cc786e207d180,0xcab5e7caeb764e71d4cf327162a81b14a1b08d85a09615648a1808dab01d9a9,0x7084f2eb59bd9154c1b478f6d10e22ed5648d054e346c748ebe17fbc5c4bb2,(-0x8f0942347d91de38bbf05276084ca0f6222fe4db83efee94c6323b9f622810b)),None);
  ((0xf9b85f84f2bdf0fb5ec317013d34c36dd67afcc916d987094044b47e712b59ae,(-0x217b385b802993fe5fcde95a73975d339e88e8cfc2ac9758c48e1494cb98590f3),0xf3982e9b068e8fa1ad8cd84f9b449975de9dca4a7a328be6ba289d2bb19611fd,0xb51b87b2c1d99c2ca86c8dd6f241dced7dd6745a45041cda1a32403446448217),None);
  ((0xae90d49c8db0b27291c1df9999828cb52d475e6236eaf9e9544f90369bf6ca03,0xea0902307d7a7a173a9e8d472a55d96278ec13a91b722c0d8f7018b3e5ce9810,0x770932f5285876bad5aa2568d3e6432048aa75024bea59ec885eb8b68a14dd56,0x82ad7fd0cc18075327e5804eac3362e7f4db4ed9245b2c08062aa8ef97c20bd),Some (true,(0x1ed6a0ce44d804465bd4398d36d3b62be6037f00bad3f94352abece442ca274c,0x885721493915fa5a2d97f489a9ba3099f9f00c89ce8fdeb8127c3439944ace5,0x3b701a199b7380a1ca9c7477cf6f69a3a440eeee085f14275df841a4b7c1f2d,(-0x1183fe6cdd50d248d074106830b87a004aea34ebd41f7db6bc126de7ee4392c5))));
  ((0x3050f99b1337c62004e120e368b9c0f76b837cba50537ff5e210843b7f72c84,(-0x1811800bf56da832b56cc538828fadd1912eafbf04f173aaf8f522c15df97d6e7),0x91e7737249e6db1b7bcf757beeeea60eef9cf100bcba36fa34312118ac0d3,0x45d1c6983f01b3e1d1310597906b64d54e3743933af9f8084afb77530583ea),None);
  ((0x359cb63dd575fe116d4334b14409ac9b98abc4fbae71c5208e980e73c5464763,(-0x10713f9b98f22e1683216f72ea2221d075b58221534e10992754677b4c9e3ada0),0xb3a436442b540d8456f660279ca86c3609d2a08a4293cff912564343cf03528,0xa7c3d922e8d7677f46b327f16d7ee4415ff8c72d7e47fb9f46bb1770ca5a622),Some (false,(0xa7ef8597f774242922e244582e1d4f0d9e1a17537942d7472744430563766750,(-0xf7f2b816794459aaae700f7f153d031b56b3606eb5f8f99f1033bd9ae25a51),0x6e2a60676a7b33c4b469e44260631da7d3bdcd5a3383228af4f86f47537d62ae,(-0x453e939249814c8fec9b7c0cc0351b7cb83ec2c25d45e53d8a3dd2bb71af899a))));
  ((0x6a2510347f3909d4ae791700d1c75d9e6d7d86873f7c2ba63c705e1f38df9186,(-0x1517c54cbf5d44c5fc2766527af6751ed80007485e4fc256289b53a15594e3e38),0x2c02b6c95591541531258c0599cde35bd167fd65510c171061fb5780bbb098e0,0x38d434f689c4d353bf79ec821fab596ff4a65db0156d3f431490aa9d638ab504),None);
  ((0x66a8a2869b273c4fb21f8ec51837f2a7b32d7533e6343e4f04e7c2e4c9b3384d,(-0x4478687f71fabd5624747ac59918119e703f9d33b2bd909b479022d21641ccd3),0x292ad09924a85b4c197903cdc0b7e118518810feda82741408711c1d4091c77a,(-0x3bb8a5f84ec87012156e8483aaf7761c747dbd385242bd57c890c3d65f44bfe5)),None);
  ((0xbaf1770b0ee37a8638600be1bd6dacbceb39716b474509e4450dad36d5eb4211,(-0x1be61ec9d0dd71646f9e41acf79b7a5244ea31ba6704f8aff8c3389cfc11b6d48),0x8883c4bdf453a366eac4903eb2de879826f87ebb7e77c1a60f1e0f94f361e4e6,0x28573271f68b4a7b84d135401b2f42c83947249e18029e1e617b2eeac4bf2795),None);
  ((0x39d68fad14979e32e1c1742f8994bfa462196ad6f889cbfa5fc513709630ae06,(-0x10a0ae82c86afb35458ab0dbf4249d17c3365ee5da6133875a8b8a00a190b9d24),0xd113fcfa63e03c4f8170c9ff0ead3fcf42101715e19e1b6fdde7029f2833261,0x1fbd118c37a63771e6a510f83791185f43325e08bd344c96f6a1e2ae625c880d),Some (true,(0x3bf3d12f552c47336d86acc6ccbd8c9cfce3c888ba2e4f45c4b33169ac639ebe,0x11fdb5b3c56035e8d0efb4852f564b76f06f37815e68c416e34f6adf890337e6,0xe0a4aa2aa16b7562b04faabf67d0368b5ea69752057940a2a1fcfa669ecd14c,(-0x1c8af5a1d3adb930bcefb8a4e81f5155a4333b6c7c32bb74cdc6c539562c8291))));
  ((0xa062b7b604d46e0eec641b05bea0471db15e82688f5826c1c34637bbd3edec1a,(-0x2f7c09d02a6a99b81c8e6609cd097f8f32a476041ec0322f67280dbf7c4b9894),0x647b8bb515b6843e2fa23ddb24fe2296634cbeffba0e9534f7bb2eaccf955230,0x4555d1cf1cfe53b64143a40cabf70a27a7acc1afdccdf4a5b7fdf39911adaa7),None);
  ((0x9fabde1ceaeb992e80017b12d617ae37f2035299330091887021ceb827ccbb36,(-0xc370f284b5f3f132dda95faa9a6c0841638c402170ac9c5a400a965966b6c607),0x6396f14acabf9b05a71337a0d840f741bf80e86044f7f3574d7a41d875bb2f48,0x4c1258ea2d254e192023177124f6d9f03984033b0c478335972cc1bfb7c363c3),Some (false,(0x230d7a4a3dcda864775eb4ffe8f319d14834441848fc304ad231797811c1302b,0xb7a4e0a732011c3e74cbf4c90e92013fee7c470e12a0eb90499e0e4d741b630,0x4ccb025f7a80b84540423ccffdf1c0c8416669e18d4d734794586622e9c32e9,(-0x15d773f4ddc3f0d6294286c869f0741be15fdebe970f0dbe95dbae57773bc9d0))));
  ((0x5470a5c84b32e321637d2e208201a340a01ffeca339bd0aa80979c4f1170ec87,(-0x1352f86cce84b6a25bc9de6b48afed28bdc1ad529513de14f102035af3c4ed0f1),0x1bda1e5d07d11d96c0dafca54eb51eb8ec18f8c9dc61d294a9e022392c0277c2,(-0x40f33d1e3e8d1d6aa7d49d7ce467404326909d433101deb085ee0c6ef2e5afc)),None);
  ((0x7e0a3376d947900a7a41aa6d2f81b1952d4c5c95a3d6fbf1603466442e7f0620,(-0x15cdfd15327c534781b55be1052a255c9bea5af47a77a25e5404fb6018ebf93f8),0x3e0e0b114b92083228758a9780be6e3cd331c492e049e8035494925d717fab78,0x449cc77e0a12ad6742065d4ef9d5d9f75ca1f6da00c1b0ccc8eb2e18ba88544b),None);
  ((0xe05d1f4553924fe6c8c2d7e3065b67bde5d0c944415fef1de4ee9e5bb461835,(-0x15bdae4597c4349beded9f9fbd58b2f12e447663b1c9365cbf37bb53d74cb7f1),0xc4a31899d313b9be92f4a2f931a06f4cf315a54510153a8234f05e3be36fd7,(-0x3df309cec02d0399a22e4042e9d2cf0ba61c01aaf4d8f94f417d888e399bae7)),None);
  ((0xd6be9e6daef03da7f6225309237433fd6749d3ba48e55744d1086a32681a48b5,(-0x9fc1125179e71b49837b57d4c42559fd88d5c11be24265ca9a1245b48cb0ea3f),0xb4233ecfa178256e3e62ee8319d950c4d7c150ab29ccec364b6ecd7c9adea617,(-0x37a4ef2f128a0b8ba90b21cb3c3f10daa57f73dae72b490c85cb1da2d900fffa)),None);
  ((0x232359521f0e0a6d5ebdb8edfec99aa6083f85ee92d280a53cf82f10076328a7,(-0x1a2b8be36aecc38ff381caf2b518239c6a91146ab041cda4745fd77887c5484eb),0x4d2af4e04ef37ee6def724e4b34031374695959a79e3ccf3505c264ca7b3c23,0x13353b83f4d37e837e38d2fc4a305c00eb1607631ba8fa79f91d5450ff9d91e2),Some (false,(0x5a5329acaed2ae0b821c3ff92a8374a4f3815e42d8d135e1aa12f39b7c454904,0x13271b8f4a225e393e97dfbe2bcb7e487f0241ecdae0d88b815eccdd19bbdd8b,0x1fde9451978cd7c948dd1fe1e74d907bfab83bf1ca8ade31f7d151419181b28c,(-0x7ccbcf2a85ebc50178f38083d25849ea118214c2911e5df25d72e177b910c3))));
  ((0x38ddab01e96df9b5601daeee9c80b49ed240c47e2ecc960852018922aba272f1,(-0xb4f86a8f1fcdd9b5d8880ff1969e5bcd367663668f0d16da3bd20f7069ede5d),0xca1bac1964a6dbe9a2b4462993db6029c02c06d3dca403c186c4320c5e05a9f,(-0x1ce073007c95dd0472c3946576c5d531861ba2bfeff97dd9aedef6f914c8eaf8)),None);
  ((0x95b7fab8a622fff06ad5e5702363a19dae3220b75d3ae3ba3a0b13ee14053131,(-0x16e7c0241ec652418016f633047d5de8cd2aa98c8626443d874617aed4982be49),0x578fae13b27f1bb6bb080b7db5f0f5a80a66a4593fa6a810a0a2efb763ab0d8a,(-0x1dad7820ca91ffc357a42eb4047e0378c72e5b47d488d2e327dcff3fae7b47de)),Some (false,(0xfc4d96ecea839fef3458afc42dd2aebbe8df8127d87932bb6a0166b464f0a6e0,(-0x7dfecf1534eb6bb6bd19d9a4ef9d4c464f38637c445f11d5df4b804b565d4e9b),0xf8a8d8a789db8cc72f16e1f26b605bf126300a7bce61fd9ff276f8529bacdd3d,0xd5b05a241677c3c18d5a54787d03a19cae2996c14ebc9466e7050d74f75c2b)));
  ((0xd61aaa1d2fa2f18ed3ae5954ba603aac5f3335e1a9f5dfd0ce48bf670b6cc41,(-0x272b07bff697581d52c3848ab5cbd02462f4a9c085f75a639749d84dbed755889),0xb31097307dad76bbe2210437c3d3378df7ea178c0818ba05edeaeeb1cda9c8,0x1d99c807e112b33d9fdeb12662d7e965cdcd9df6a4217b38f23e73f6f0ac533),None);
  ((0x81cf2f0da04a9a8d5e2b8aaf129425555dd3450f63c48f5298a3172117c9bbe5,(-0x18fb3e866377225000deeaf4198c537e08d32827299b0bf1d2bfd237894c8f52e),0x41d275191e0cdf1656718809ea55a2a68b2739c41d93a6dbd78287cfc49fd7e6,0x1732ff68b778d2be8f6d285d4007ae2d940110baad4c65783f4fbca0afb0bf2b),None);
  ((0xf89eff93cd1946c771ec51aee6652fbc4be5bd27ecb8a5f9582e29d31d54ca7f,(-0xd199f2d244d96b092253c33247461a391ace65ee6091b509df58156069dcb780),0xf17471efc86e5e322c3e861609333fcb67a9a59da54ae6e2f35d2cdd65cda63b,0x7c2f2c6c7e3ee3a7e6c434bd64df92e5a6cb95165d4e2427c3d845aa32a01586),None);
  ((0x3a4b5e9eedb02dd5b649eb3d51b50b6baf8c4a66aa3a21b5af35118aa4ffa512,0xef3c4c5a3bcf45387db26f691376c9fc04d2790bdec447e64d49651b66c6dcd,0xd463d10a5127047ed6fb4e6f4e4ed44271296cadfb4654adc3983e7ca33aa5f,0x4ed421f90e046d022584d67939c6f2b757e064c8e438d18c0d43af2a805d0ab),Some (true,(0xdfd04accf49a9f6d30c54f3acc46d1d8fad2365f367ab18c6e37175b86258a73,0x5a9fa61361aef33982ed59010b7023baf1b1c61cb1716d4748e2844ef09f198b,0xc3ac8bcb78ba8a4e25c552b0005dfe70743a3bb84c0eaf982d11f536c744311b,(-0xc4917765e4658cb02cebcf0c93614d32fdd6e0f46e8dd4ea647368f7ae845086))));
  ((0xd8833940fe6bd86636ea00d04162f80381a184a21c5014203d4cf7987edfe17b,(-0x1115459b13c389585519b83127ee4ce69d603f9bccd3ddd2e4b20802a28612d20),0xb71db3e209c6153981135c9cd57b41267623608db2e969d5a34a5f08b424804a,0x6051089334fa4a12f8d23495177b389fa305163b1384f14c1a5dfd3c02d693c6),None);
  ((0x34e0318ef4cceb053031caf723efabaa1bc24c69e63a9d8f8719e91cde261341,(-0x7ee5699268a0d2b4484eb90713ad72888806ac26511ad86d3d92ddf67e189aa0),0xaebd878e22388192b443b75b30efb4c966456e20d9fc1ac07ff42b1406de166,0xd99949f556e8b9f4294b96c334f0abf2ccdb92e260dc0341262d2f86f198ad2),Some (false,(0xee0303e26b8a5a74df66d02b058e0d9f4a9e0d6f22924ca506b2323d5fb93c30,0x366ed8354bf00283aad50903162df0dd5d230632d5ad3e2a7d19a1b64834e9bf,0xdd499b42f49c7778d106a9a8eee0323ba8fadda486bcfcc33be1531187683611,(-0x4249ebf8479f1a37878072f89dbf227e161b464345c9c1d8567501baa6da060f))));
  ((0xd95f37764b743c597565d7a009db30e5502af684e94da9d625d479a4da676426,(-0x1881793f9b74657d33f2a97fc72e5d02eb6fb75acf416d65645ad068392762fb),0xb8928f717a4da91acc7a45d9d249310519856b9f9f6282287080ea572a7931fb,(-0xee1571995140b07f93c4576c667740d76348800e3c60009083c535c427b07f4)),None);
  ((0x36a248d4b2142e8d6cb762d846055b230335bf0185fd6c14ebf656324aa5edd8,(-0xaa842b3ac3c18689a1e20702a2a6dbf4faae56de236b7764778852d37efb5138),0xba8dd9a08b317ab5961e994d9063409a44fe8999d93afcd0443cc4528120b01,(-0x15addacca1cf008f571dafc0db0e1f04de45bdc5b106a0f3f43fd7ee0ddbb920)),None);
  ((0x2002ed545f4921c8fbf9a5f6f5fa2c8edef4a2331a1403d7aae2f2cc3cf48b85,(-0x25f52bbb63c8c4666e20b9e66aa8b072837e31bbaddae42c4adc6076abdbbf03a),0x400bb5dad29d530834f1da038b8454dbe580490eb8004f8829bcbf08c267488,0x223d41f8ff7864e812d0bd99ee7571ebfce2b74b7e2a8de81b6c5d6970af14d),None);
  ((0xa1d08d14aa5fa9ca5041d4b64b39c48ef9c3911ddf9b783db72b07de10bb2e11,(-0x113de710b8733582e60cfa82c14c3305acb20f2837b8945cb98cc28b48d6fcdf8),0x6647fb59f3e8efb660b4c228959a821e7e09f28fc136c3d22c91916bd16671a4,0x7a899783c6526cf9c6ba2e272be212ac27472767cfd8eb7a7881c742a76fd7c7),Some (true,(0xda7b5fffac2d087471887fd57d6ed53f305eb2590043feb932b21ce6bcbe4f1,0x4385647fb61880dcbff66a33b8dc88480424f2be21ed47ddebd7a28356196e0,0xba765af58f6241c327f74935f7f2435eedcc7926dcc55d3be6543992e4551f,(-0x4dc55c0f509ce47ba3ced631f9c501eb6c4b8b12014729516780c59f23985a2))));
  ((0xd09ce7f0934d504499e52d3e5d9f7ab890e49f60d9724291073339595ee46115,(-0x96d9641520d8c0405301ee22962dbaa360c7d9f49acc2c2770d6514c9b9b90ce),0xa9ff591318b48da5c8f95d4b7cf22bb8bc70515c31827b4bc2437bbf9b95c298,0x10ac9208f3e327290cf52fdbdca6e9c4643b6e1f2dec59f247780bd0dbe4e0e0),None);
  ((0x26bfc29828a0c811598d9ad4dc75cc28a845b4e413816c4e030fd2f578a6340d,(-0x67b34f1d78aaa0fb10257371eb446c034a69a58d85922a8417837a35141217d2),0x5dd7d6924e4d0bcc41b826cef246b798c0011dadd847c95af3e7f5c7439675e,0x10ae594983069c7530d8592fdd06a127c1ee7008082dfa0e805d64a500c2951),None);
  ((0x83bdabd78ebb9258673ad87e51c29145a54066eeb2dd307f2a7046814c863870,(-0x3f2e9e873ef27da1b19e365998bde46cc2fa2623969d4936f48993c4910a74e0),0x43cbaa660f821152000b97901820d207cf32d1e76f1fcb9c4a177aec64eee821,0x160a7025039277e778d7ae181e08bc9b9c146e7da40429c118de774d35ab0f9b),Some (true,(0xf8c950629a6ae0064ab65809d196bb7c77b83bec6fefa964ab0cad46938d7d0f,0x3887bc22e24ffc836ebd27bcf7b9d32da1cb0b0302089081828d55bb783f4f28,0xf1c6aa0f5109fe6bbce226eeb71d20cca0ef69cd9064b3a8d685a2d3c27d1371,(-0x1fcbcb31eff46cdac6be43f0ac74689f47fef1bb988b15e16f06c4ee76acc6ba))));
  ((0x1e24e23be43ebbe98edbe61394c3a6ed01a7f4444ac3d5e4cce9f95f1f1b30db,(-0x4804cd322f2482af19e07c5a6b096f03c039058d121544b9be406a9c5ce0119a),0x38caa5675d15d07cda3367255501b61fc3cccce7be2f8d1e9bfeaee76aa799b,(-0xeb146a645188956ec9d8a49577fefd95e105164a7f9c446927de296e4a7abf2)),None);
  ((0xaf7b1bedf0c2915b1da8d0b4b2c1a7744f9b9aea67bf3dcd991f35c737a3050b,(-0x1ee3de05b39d4e2f7184c0765b2beba22fcbec5389fd5c11d36829a7c300afd6f),0x78498b63a124f7061e4e789416086a1431228e07116de20a050f90ff71fa3845,(-0x12007f39460a4af113b087393f4b11f57223b983457b2dd773015b7b48361aea)),Some (false,(0x13fc0ac0cceecbfcef5b641a46ebb694322a1e2ce1795f62409055263ab9751e,(-0x9cdce6b5d89e462881eee5ee63cc5083c5c434425271e417c272c149a80e555),0x18f61bdcc01eb5da220885e079b4219b2e33e5ac67340dfaed9907925fb9e2a,0x34efef145c1c4ad1eeb09946ef455fea7107356e38859b47e03aedd83ad1f77)));
  ((0x5a5373071c8410c59f30302988b7937d96d93d0326acdfadefdcd8af26e1ccfc,(-0x172e967a8c8c8fa68b76590ed3efe3d2442672e732aebae04c18f0fe052a8c1cf),0x1fdec814ea378553d7e377fbe45ba12f906efad960160d73d4933123dea0740a,0x27931062017b96ab867fdd1980e7bc66efd785c4c35105a33c47c4b5eacd177d),None);
  ((0x3fe3b0951f395eb073e1f22902d9293b6a9263fe3218d9f309bb55820cc0f697,0x36be5f02caedcea60e70e20a24dabc03a40198f89e1aa5458f10350e8a66a349,0xff1db6c1792d9910c6180903497400ead70382ec11f04ed164e4c7bcefba43f,(-0xafe2d60d32650d510019d6389c2a7936d737d6e703c4616dde3d7ecd117f2ab)),None);
  ((0x12cf251aa4cfee094ccf2904f7f6ba0dd636e60fa7d239baa9ad8e7a31f1de29,(-0x9aa0fc601cb29b99417535446af83e07b932a192f0d0cdbc55e3ddb53c3082b9),0x161c8d4c70644fb06a1f0e57f3c127f5e9ef8409e8afe870109954b39dfc354,(-0x7052e77351ee501c44596bf0d21c72f21d156920c9fb97de5013da7d2de2737)),Some (true,(0x508a4103aa4fb9b44ed1b547e7191e548c4de6f104a4ea3dfb5f1e0d0cb781ae,(-0x22ceea36a0c59ce8e0b57d2108468a02d964e1d86658e9abdf674f9f42a66371),0x1956b34c8c3f01db460a3fab0f661dfee8acc50bd41224ea9b2413677c90c8a2,0x2f629d6bc65fea4de3e5745f4d2818bb388601998d4ba04ea26e24e0d38c669b)));
  ((0xf99a98c677df5fa909f310e9c1e4d2e4d7661c86650dd382f74d78255dbb4d17,0x2aac56af415961db58b99acba28937d86c9b7102f06f8b73d280d0aa61b54cac,0xf35e1a8f3283239b1321fb85f09d3582bf9857559dd1f2980e5525e0ec53548c,0x23bc960fc68638a33f8f11ae62ed2767bed87b3cc43e4f24720c8421a86ef389),None);
  ((0x1f7bfca8004798e8724c6e51d327af0c8b9dcfced075624ea910059c69819217,0x18230988ef68584e746861f28ff57d4e29417684180e7596f9b4cde92eee3826,0x3df433d76bc0de000eb88ef07ba23e0dd57d8650a27dae12b3f805d9fcdef13,(-0x184361b004bad93ecdad93037d904b9a9d1f893e54599589bde0bd15076bf535)),Some (false,(0xea61ebd2d3942e8ebbf5cd314577b42b656c17a07624ec80f29d95b705bc8078,(-0x6e77ad9101fc25444900564e4ea848a870b87ed80ac638093f055f5023894d4a),0xd6972892d063220c0d07cea39c4f60a308a94f50ff3be2348d5fbf853d756278,0x504e172246b11352b81baecaa3f15c786b0bdb616d35a00768e632bcd56f2ef8)));
  ((0xa3de9069471faa342b1f94816143e859488a3c6c1ef406ca679068b552e10a7d,(-0xb9dce5293c36847e1d1ccf64cd34c3d1fc64f0c60987e028872ac6f43680fbdd),0x68e52d654185765d853c2e7d16a88d43a65c452beb4f9dde15f99c4c28aed54f,0x2fb2b16eedaa3a8421e181bbab3288815f1bd76d7d4af038ee3f420f8e72b98f),None);
  ((0x6ac99a648f4e996286abbb092d030359e86bc32762e924230fffb328ce2a3d2f,0x28140bf5c934c51d95757d0f31e79a81e32ea9f9131044b7b04f44d06a54bf01,0x2c8b929f423ed6fc601c3b6a252291c128d68874b2b061d8b6427d1ee93aaf70,0x90a3a4174320f4b311b986b6225571ae9e9177f4686de9c0d33e90f70134b25),Some (true,(0xc83cad68877db0d60ee2b039e3e4f06ac590d19df1513ea7499b8dcad22b4137,0x31775628f0413d426d69036edee56ef0089f958aec442db0370507a2c6f2cbd3,0x9c9edd55aec9365cac9a52e6764bbb3fa473c2d10406825345876b3cbfaf527f,(-0x307bbf88cb9e605eddb43e5ba23cffca8e97093249ea0b24bd73116c97ae309a))));
  ((0x322a3dbff95330d8cc3e4d62a6a23ad2df649aa57716ba592858da4a01f6a9fa,(-0x3edae1b233a3cb11ec78f28349516b0a5b17dd7ed3229ec327af73dba04f1818),0x9d48717591be23fa86fdab925da286ddf35bf548a094bfeda67d85ba63edf50,0x11a60cce160ec0c455c5aec9a9060527aafebe831370937bdd5d131a79ee2b36),None);
  ((0xdb71ed36608df6cecd3b847f64e0c9d9e954eaf9bb12d5196e7cfefce9505bab,0x16f6d24ad6d08c13ea7b8bb4842df126d82509e0b873fb5a3a9a12ed2f198983d,0xbc1c1e8f0b1dfa7bc000ae3d540ef282332c572b0a0aac492e7dfdf2cc96e4d9,(-0x2e696d625425d27ad56daea221f246e42976a1afcdde24905f3bfeecc3b6035e)),Some (true,(0xe094f9e6a5d2f3f42ca288838583bca6da59f333d1745928a3c7db55c049f0cc,0x209d51d96ff971bfd0d098192f23e9e77df2493bf18c8a86b2d0aa479c2874de,0xc5050c064dd8713daa4c65eda666397777805355bae77ba3aafc77dc7aca280b,(-0x4536b3d97aa26954e1370c19e392d365e05d160a38ea59eca58b5f3304d42310))));
  ((0x2dc0c0c579ac7183eaf439248fdbd6eb07ee6afc5cf1e930cb52448f2d0bd9a8,(-0xd9b89f449446599f7082157dfae7c63801799ad8905b74902d64006668d0ac10),0x82d54e72e534650f42148c3b8842f6a319933f59308429c00370e58d169d845,0x1cf07f119a5312dbc0450e7cc9d7c6b393654224b586a6bb68e0915a95c01f8),None);
  ((0x7f0dc23e5824f6e6a2e10a108d993c07168fa07ac98771adf36f5313fcb1459e,0x875a137fb4be5765b6cbbe2b43c8f92f463b9dedc6c47b4ca6cc01e09d71430,0x3f0ea777683ad4f7e8aa9600d9d6b9d0b0d36a0eaa116e8630e0dcb6aba8570e,(-0x5e99fcb595e7657fa37822f9bf9f712962839135fe24e57a8d264e0e0898ecd)),Some (true,(0x64877c7b1fc2bc5b49b492d268d93e1da5dcfedecf0f1fa4cec9ba4437c5ab78,(-0x1116406cbbde044c64e9de92a977430bbcebf288e0d91f2fae7d7dc58c450c93),0x277a20f4dead457ae09a208d204dba88510506571ff0c108ae986413fbc1e0cd,(-0xfbf34aeb7faa04c0d0e92817b26192cf5d012b73f95f066546a034c7646744e))));
  ((0xd179f413ae3bfd5ab16b4fa72c59c7cff3de907e09f0fe2e6784aa84fdd8df5b,(-0x10dc6aa2b4da45c5b7a821fc98bbca08153724a19382fabc162c00e9ae9f160a6),0xab685aa1713688aa09ad35a9cc65bc0938e905c5e23fd8c05a39811b3e40c039,(-0x298d07111e6804ddb6fa670b4631a34824e032ae4084cfb4318dad55685e5be8)),None);
  ((0xf3651f1948b6da881c2419f75d7cf4b68afc8df485801ac4b19c7755233c6f0c,(-0x21fa2110fe0e84c454e3fdd5e2bf147200d55920bed98032c3dbbafa0b6398693),0xe76920fc752ec63df3e365f7d89f02158448c257804690d50c627a563dd4d6fe,0x2bc894e1592610b169f537df6bb2e0587b445b6d89d03489e79685a1a950915d),None);
  ((0xbe23251d063af957b0c233d8caaad3245a71d35cee8041a4da77eb003fc49840,(-0x621edcf8fe02ec090809ae83b5d9b9edc987af5eadf6473fc34537e9cc889a57),0x8d382feacdc8d5400e81e7a174b35e8572c1e9a6b875656bf36fd8ad9e5945bd,0x8ee9b5af02dbda6868f5bb389acd861ee501a585b14aa7ad72a44a183f80943),None);
  ((0xd6773521eb6e218ad74d5d85cc0a9a6f3f123dbe6a34ec9433b8a7639848538d,(-0x2b2f47949f062edbe5c420cb883362b6e6e3232c1c3c46463d65a5661375845c),0xb3ab8457d9d794c89a0116a0ad5897df6d13b2316af17af79ece3c4e91769bc6,0x5cd52d85dc205c5a5492b2dc691fa830f9486ea5058e2e3bf2612ac2ffcdecda),Some (false,(0x74fbcc00f83f05c522b19a41d601f5976a98acdeb88ec6db4fb9793db14a41fc,0xfc3951d8e7a32562ddbdf20a756dcc5c7177d264c4b42861306bec810c8dd21,0x3575288ac2e69cffe760ca8223bf02710069b28aa937af865523aaf672dbd0f0,(-0x77db40eed9514b388671af35469758bc0d7e39181a12014235109237e692b54))));
  ((0xf0d694dc7be1553458e68efffc38c561ebb91b25c1907f1c5bcfe499ce2cf812,(-0x1977e5603e40670a597e23d5f8776d5d3c00c2c403fc94036ed1bd2c5fc33378),0xe2930afb82085498eb6b7e2f07b2aea18d9c269578f7f4dbf663bbd70774351d,(-0x1bd82be5a0a268c191e959eaa426a576a35d75992487f47bd7a14e0981bd83d6)),None);
  ((0x3c04b10e2030d40c3cce02cad7a27f18d87cf02a6e1cfe5919e9bc8fe7d30f3b,(-0x969d8bf7b62179c13a333d28fd43ff0cc6075e6f818139e6c25af59a6cc7341c),0xe123314b00ea14c0d7b41b552aae8ade552297f280783be0eebbde715c253dc,0xcd11c3e6e1e6b4fe103be0559f04b07b4328f69ed297d78f8360ab139a98e1c),Some (true,(0x98b369cf6954a89376e40788db863a6783c9fd10121c4cb038ca75fe0dcf9a1b,0x19c0e39f319ca8e52a64f8fa92babbcec149955baca987d6e5f8db4121bbe7bb,0x5b158b63cbf32c6940ccd123dd2d7002957d9ab746aca4e8673cb4e245fbc015,(-0x5292b55500b75e35239f71afcb64f03e95fc0ab543319ff03f5176f81d9a9a19))));
  ((0xafe96cd8f3779a7ae32b41413a9c0718e3d373a5ad02482a4e50c9908d8d88f2,(-0xf6bf1a912b214a9fb38a4ef3a86941ae358740f97417075974f8a8474c8f44fc),0x78e0f7a866f171dbd00fc8597ec4e423080301490e46ab34ddf2481f9405d8d5,0x26103d0e3616f3e56777294f1e32453d263bdc22209b26b7e737525fb15ec27f),None);
  ((0xa7cde4c843eede7aac73d8f7e8803d2ad47aad6fe34630e67f888a76c379a59,(-0xf9fdb8ecc6b10a96ad85ebddb6abcaaf66452a460785b19393d01f19ce954b78),0x6dfe4615ebd20e958ed8294f049aaa43f272cb14b66616a7c3080c28adf4b8,0x4fe67fbffb35a6c364114668096cbab2f082cd2a231d64a598f541117785f2),None);
  ((0xec7ac66029540de800244440f67577a50ad5dc9dcb0f81e1bd5ee9d37e69ab90,0x917922fddbd7c682417a5ee316dee54922f6d9be3c32c9cb35f0461b39010588,0xda7298a3d405da71062f987bac52007d12d5c477fbd3f9c0426f1554ec2b62f5,0x64e5a6a302a345f16d32e042ed56699a195cdce8ee1f0dd0993ee35717303985),None);
  ((0x28f2a049df395feaf34a1ac4b9d14ed79fe51c1cd49d6a4aec93e92289096e63,0x12ec002ef4d042bbd75b8f7d0d1f51ef556f709370cbc7c8cec16b6d1fd410fe,0x68cb80a8c551ad61346e9562d175d297940f4ffc767f84dc29b80c4804cbaf0,(-0x1295277abf85b43d753fade8c1ac300ab1d9bf85acb3ef17f6ba92d4a0a6b4c2)),None);
  ((0x76fcc3b8dec52cbe1c6584dd2b12ceb245a036a856487d1c9a43c0c93d0b5328,(-0x5d8bddfb3e8b2d12c6ffcf286f33ac016f6a22bb3a8b6e0df52c5ffe1c2e00e8),0x374dfe008e4580510ee182ad0fbfc11afc90406edd084649dba1a7aa1f7d9555,0x12489bbf9ee9418267b5c62b8b71066008f463bf7d38d1d9d381b744ab5a442),None);
  ((0xa0383d13acbd2cc4c34932bee13b5e59cf96d1d3468bc0c96bd504bd709a3a28,(-0x34cc7b710ae3673cdd0d14a64224f8f59378afb446eb0e8682a4e3047c57f9b0),0x644658b3c360c5422944863c9ac3f131e90dd3df8ff57883717f82a8953c7522,0x25feec579f44e0c996654ac288dfa205bc019a51c39f7b303def19b4dea9d6b2),Some (true,(0x5f2548556bc3a96feb64124921e0c0534ea9075b91fd7520e5c5bfb3165a819a,0x8e8da01d114887118c45b998c6975a11c8da2d2a80c68269bb8314db0cc2fef,0x235cb11d8679388c3ac575d7febd561532f56c21c8337827220cc13d8ec69d1a,(-0x40d4f894d81647d4ffca692915636714dedf4fa0ce6a4835d12a1a049485fdf))));
  ((0xe04398830685690df5e208459a98defd8832b5196e2be0b8df82c16c77f7f5,(-0x668da0996c5acf3e84316177c1aa6eba67f1d6150cf98278d1b6df5ea6b61b17),0xc4765cbf3f511939ffe99dfdedde9f8c41be7ad0fbcfff9389c36918993c,(-0x2a2ad8d1b17503edbdf541bf0b0d8b27b1ac257cad7e450b1ada46113af6ae)),None);
  ((0xfcd96ffebeb7a47ee4590684b7c9a2e0b8fa03beabd83654d7d76cdbbcd60335,(-0xb543df13daf38efff63913922455903c3dd391c10939e25aca1f47ad691a14b6),0xf9bccd2d9014933d8a2bbb8d974d2bfa1fde8ebacc9da36e9772e4c380a09f7a,(-0x652f21f93b76c46d482ec2cc890ff780cfedaa2737e3f1eddb0e2237da31c2cf)),None);
  ((0xa740a7573695f572d3c174ed4560cbd69eee3a8e77be3734bca252c05a6933a0,(-0x203f0c176cc9acb3955cb7f1dfdb3cd6e5985bd9c1db2e6608eb88e4d1c88d730),0x6d456aa84f7b42cc37b25f2257be39cf472d0d2406b908fc98d1368c702efb4e,0x640a267ebaed7684c4666bf162bffc21be41670b4dffa372e707df9aa0a9cf8f),Some (false,(0x7878b68ad2a204d83440137779a31f0de81af36b23833099eb30db2cf80e1b27,0x758ed232fa4cbdd3b749e150215c9b84dff487b90b0cd3e80c93cdef9dc4fca,0x38b1640e02786f432852f367b01b1134a09c7b0cadfbee86cc7c66926ad6da9e,(-0x4988dbf260a04a434247582a2e58b7f8319c187e37a0047d20fc2ff4c8a0e6cf))));
  ((0x6b17744891c14fed2d65c73839d7005e1a4c8ec075408cf501561f9450e72b86,(-0x2aed583cd0da201298e7497105d9d8ea63866d3bf8e95b099e976dfc7667c8124),0x2ccc9d5af0803f90e46d541ad02c346c03aa5d133f741ce9148da646c5c139c1,0x63919e68c1dd63fdd76ae7af238c9bc1e859adad315c063f185492bacba18a77),None);
  ((0x4c99796ae98e55b9258b388a7b380f8a3fee10ea8da2f32ec08dd753aa34776f,0x13ae2c4e72ae56d7bf08a86086544e92d86798fead3778e3f4ca4ebcbe4cba44,0x16eb7c19ecf9689107a3e071d88a517b0d6bbb1349232624bc4852c7b989a169,(-0x14567532fb96274cfaa0064a52814e86a9192b96a6fc1e8d23d50a50618f0192)),Some (true,(0xc19659ff5a6e8747ab72c561f93b058b92ac88c37a5f9079206663b510adad0,0x163b86884c009e59714935d44d7f7682368e0cdaa885cdfdbe3859e22e81c51,0x92640c012fa0391757ef62077a6e453ebec00aa08c65ff5227ca853e90f3f3,(-0x2c492ad3fe2a91b590c5aeae774f137f400b99f17b463639e95d71a9382738))));
  ((0x9c82adc5593be14823416d07f9f833db891a9f58ca31315a0dca08778edd591c,0x927af37e40875ba35edc89dcba261d5d017f52d853952f96fa6ff0239d9bece8,0x5faf867dd6d3749b931e62c4a71d83d624f17460573658fa5b7fe8758cb4a316,(-0x12820f35bfcf799773eb4b62af39bdeacb0c588a356b2843e7fd3736a738a459)),None);
  ((0xff5fa2b8eaa15963bcf8f4d08ad28483801b21e4ab054838b84b2c1b7eec2911,0x6fe44ff80b0d3145135f7c80f25130c89566b468d583b88648e182e9a5b05b85,0xfebfa9e78ed9cc41eeb6727e270c3ee483d643c2ecfaf5cfa844b8e7b7a81ba9,(-0x869380026dbf94d2fd7c556070eda7d87f47bd015ad50749e010ac5ed43e274e)),None);
  ((0x32057cfec2c8b40d8810f0fd0f1bc108f4d4bf6fbc21b9a5e7e521a26d065898,(-0x2926aabcd87921abbcf4d0b714af7b011c3d4875694aa5b47acf5fa95fecc5777),0x9c624f1acd7f1577da6f01ad5ad19d4435293d2173c03ad446210d5745409a0,0x1f43dd15fc5c7c47461588aedaaee3e95caac7b72b610df7888af5ce9e906cac),Some (false,(0xfaa423937f8c1bf47c309e43f7fbf1010c092e445135e079e111eea484eae5f,0x1423864bf405a294c5eb76751cffc3a054716ca98e7e0ded33e2c0388c67b23,0xf564febaa46fbab30cf2148704ba0d184090c24b6589bf2d8bbba675da8905,0x2b74b1dd09447f880dd431b1b7196ee927c69883fb070d0eccbff4541b8597d)));
  ((0x8ef7af95992811d27114c308bc6fdb9f604cedeceaa0afac88469b7533a97871,0x126539a56ec6a1fafdd8f3df81dc84b15cd049149cda84dfdea7589ee1991efb,0x4fd7b66e90db945687307d7b2539620f60c6aedb0feb8353d2201a3aa079fec2,(-0x58f287b7e84d68df1eee7a1aa0ebc3ae367135dd86984d501246cc089bf13e20)),None);
  ((0x6693eb8873b08036c280692a62d8326e3d8102cb893da346d647b54a158a61ef,(-0x14ee01dba1ff36edbfe942c2c0eeb538729bfe9774f9a14efa891fe631e27dfb8),0x291a35293cb3852920afd36e99334684e8a0a4a19d84d8b785de8007db5a9a8e,0x3997238a25cf01b62f5b83744c31f83ed5635937d9229444b551d0ad599fe85a),Some (true,(0xe091a1846abc8fe2c94233d1a2df3f348d91e0197790b8a5037a3edda2b3b1c2,0x2b57f4944d9e6ef491f891aaf488e4f3522cb63a542a5d9998ef58c4a8389c98,0xc4ff2d80ddb1e5a763bee4e45ca2dfb0f1adbb4f01fe4f8d0c339fa83926a5ef,(-0x6919c7e7347eb0bf5fe37f72f8fded9459bb9b5e6c9bdb3f398b6af85c90c329))));
  ((0x4439830783f364ff8326337036fd5b26868085c15009f456a82a1b0880ff7d67,(-0x10c4422f32e366e2767f35946585af452e16d2c141592340f78c660d6ccc4c891),0x122e9a87acb15bd5e6a77a9d69058d17bee89ba786e4a1113e2e07ae6ea8946e,0x1feeec3f1b5db9f7e64bd2fd304c77db924ffcbba68c28df42ce25712f0e673b),None);
  ((0x2f41d190d91e77680712007969891e3ca1deeeaa9415496a1d4e302a4df1e551,0xab6a38bddcb2b56e860c4690a45eb78b05b99b5d08b70ae961965da2c0d09b6,0x8b93bdf4f8e81a8d5a453bc41949796146dc8a98a9d5fcc25a521c6a246d088,0x1ca18f5505a22778e5426c1ebe62abee0adabc94bfae7cb655e64b259c18db4),None);
  ((0xe60a0cb18c966612d38cc039609f7ff3a2de07efeaf428b0a465c13b23621739,0x1062477fdc44bb68e9149f895bd83d31b7ed7ad75b9df59824182a77edb691432,0xceb60f34d5d46aafa3778dbf048956fc56050132c3e0b9127ebb15af79385a67,(-0x20cd555c657e123111d77ffe1b4b46a73121fd7d9902b5244d20fa410fa6c403)),Some (false,(0xc75a30555e78aad072191476bba91d8369aa498d01b13b2b7b4707e205f20a94,0x119be033535bea971666455e3925c949b16a1fb4a656ccaf0503b9adcb86e2fa,0x9b3d56eb59437d380905cd4680822fdedb71b8a530e749fae9ffddaa990c3961,(-0x6a7f9004a7d0198967e337c0196fd100974c09d9a9156a9641eb2c63be3862fb))));
  ((0xda1583e3ad79ae5ecff6ebda1b774dc7dc00d278dd25680f869cc30585dcf0f,(-0x231c325d4d82fcce539615d6ec2e84794397a6e5d3c92fe1c3a338e07c6d6c614),0xb9c8a66f64892766644d1da71f147d3577a180bdd89b138a7dc65435267af4,0x62d9bbfbf628b022e639139a660206895aa78189e9a0c0758583881c60d59a9),None);
  ((0xd3718f57d9db98eb139f5f4e3a41e28d035f899d9e91a8107efe15b79a27c629,0xab06f0a3dd3b8757bb7286085c84ef7b6546647221911a7fa388ae2b7afca27e,0xaea464ab5b95fa2450503496f36e31bc42ee42e9fa59d0b1890841cae159aa09,(-0x6fb90e42fc417ebc0662ef56db3f6a0edba12939efc9a8e5870aed605d9f1c68)),None);
  ((0xcebb240edc61826baaa5297c41e7a8137af81c8113dc9c20ee1933583e3f7494,(-0x13a582136fa55f6bbde28b0164318aa02e5247b4acfba0383efdf0f2d123ca763),0xa6f1b6d64468ca07b274785246b4fc68ae9c160b1d8c71865bd403feb37f5a94,0x9461d15f9c081cc8dbed6e71565527c74a45a77e2ea41e05c7b75cb7370f0f92),Some (false,(0x8b391b2d59c8e63ab3fa0a40b860337b5aaff347b3228e323104d498da3b6418,0x1b6462dd7ddc8952db3328c0c5514b67d2920af8996d473e66622b898aac7d2d,0x4bb71040a84bceb3b2d90b454393aba1ea65bcb0b349bb2eba6fd2d012550ae7,0x161eebd382290e1e4748816d32664f18f62f7470aa7386dad525f83c7289e4ba)));
  ((0x3d46e9ef5aed4aa9fea6810de4d5e822316732bcbdfbff222b7ea641d0f4c236,0x187532541cb1f002c8a320449c0a57fb264ff31de7c3334c3bac0d6f6e028cf0,0xeaadf20e4ab41c987998e9f42faf012d1f69e2622f7a47abdf029066ee8252f,(-0x1d10f2196b14d2e118514d02e4679280ef1040b87e4cd2c2fb326032613a8aab)),None);
  ((0x2d45701fda7e3d7f4ecb15fd4fefebe30788a1a6861a4f6ca1431cd8c329e135,(-0x974f324a1ab7f76ab1f7eac50ecb1c51864ea5375c4c50aba5bf127b0ea3bfae),0x8017c40dd198911d84974ca168db17fa188569f53886d4f9176954248716f52,0x484c7e78f91a09d19a1ee0974484e95c847e4b551f5b7f78092c0ec96ad00fb),Some (false,(0x6d1ab84b6bfc3dd20fe5eb07933ff7ac3f81ac780b4e9c3ec8f773b97dda779f,(-0x20f9e680633a0fd0d41e38b7e709ac5834f8eea27a6332de83f2cd08c39ff26),0x2e7fc3ba5c73010eaa5f4653af348858f19ea30ed398e4f45951dbadb7bbcb89,0x15f81c555041e9da7214936be489b0a119fa0ec220f39ba71b0ff1e7bb2b4424)));
  ((0xf5c92d577891d8d5e9308b7380703c776943d20df29457a43a089efed2324e08,0x16cc087753f1f9f4526c2fd20a7051b10d90c0091f22aa703e476bd243da7fbe8,0xebfaaee294250b380a8f193afa3f4da13fff7af1b3c415ba141acd4a39136961,(-0x4e219238a0387408e791ddba9f810c9164ed77a61f6872892f140e0af88888e4)),None);
  ((0xe88b7de3f5fa482be7b122800f456e1688c08618ee100504d19da17644a084fc,0x923c233cde9ea68b2190cca9cb2ea08f4d362702668848fb8b23e96b254f8c18,0xd33d202ff48849fda599b3a637366077a288dd34195503b900bd559a2071eb29,0x142a78d1e4f527d48a393617f364935320ded6e6f7f2436a5877501a642793d4),Some (false,(0xfe3b635c4752201380648dd222ea1a37a8b56b31539ffdeffff0bab1e20a6457,(-0xc61462dac741d140473b1c0bcbfa416cba54ea4ad4034e2d4723f154be2f986),0xfc79e6f30d1a3ee06819db2926d59eec4c77f055a554b06d314971cef7e626aa,0x3baaf822419d80b045261457307572541982289789565464e13df279b9839db5)));
  ((0x13e1aace41718a701cfc777d12d8d44229a07d9deb4b28c637ee82e18b6b8866,(-0x16d09c838010ca659ac17457cd7487b19cfd70f24076e0b6face19811935aabf),0x18b46484fc7bf827aef74572b604bb67ec9a7fbc7c21afe75a06ca5fc4597e4,(-0xe05883c8d9ada2433e79226cd6151cb8e8107faaec7c031f16186050f32346d)),None);
  ((0x56436ab347a1162845d4c6b9cbe939adea2c4f90c169d40a97e58c7fbaec7a9b,(-0x29ee57e44017aea42bb5bd0437799035cefb0034a9db321ab5c74147ac3615509),0x1d115d7197820b84c81946c51e473cf928f7446bba8c9292c527dad405813665,0x4d3a0fc6a890bd1ec98e7cf436c4fca9458b7252208fd6bf9c89a7c260221f0d),Some (false,(0x9b77ec69617f51069699bec6f62797e61fda164d9ad2f53842780fb17e45fa62,0x3a74537457af7e62235da5431038d1a26de861ab5c57561ca13560ed8094ad6f,0x5e6a70759ec5b8146bcfcf5e964351afbbfbb8f829daec97058981bf0a972950,(-0x67b38862f17a0fdc1e6659e85768bf00cd81afffa47f9d6fb78d5681e5a64a3f))));
  ((0x510d851c47baf8984835e68c845e2bb545d52977fc75a523d9580f6237793779,(-0x1413073a58ab29be59cd2187f296aa48cce7934b22dd3aac2ed48f49343e24601),0x19a98ef2c9238ee857f14c1e58ed71692e4704d7a847415fad8d473527ebe405,0x1e64f287082fe91798a4609443301a1b56e644ac3b801d377a3062214b03fd9b),None);
  ((0xb9fded35e510eaf5658921bfe5042746076d1426453aa249dcb6bd3495e18ec8,0x4c18490e66beba27efb785cfd753ed3b1a8afaf94f91dacd48ff7abbac481689,0x8720fcb724870937ac33dd69c736570930c1afedc2ebd846b1aaa3e89d29288e,0x38e79f1bfb0f892b9f753a899d395f61ba3d8509750411eeff991fcb85a1fda7),None);
  ((0x755d14d98ff4cbf80f733a8570b5b20dd2d2e8c0fecc7ebe2d31bba5e4b33192,0xa6f0b0f74b3087ad0a8da97bb463061dd2d4f8a14592878b2ef3bee216b41925,0x35ce36e73b294897938991cf9d7bd9b8d3d5d1918c5e4051cfe42022d3274376,(-0x105e125134840dabb576b2610d69195b4e43b31fd1fb054094ab1026055464cb)),None);
  ((0x83362c631c75685e3615425a3bf2d24ad3517a0496f1d94b79cc3fdabf3fe22a,0x5f4ffa39de556b7d35a3a2e07c845687b919d30429e2dd18c16fa9f57188ecf9,0x43407ce473e2df640593f58238dbfebcc1c1dfadd21facfccf8ae1f5f9d3af1e,(-0x20dcb6ecd4556aa9ef2fb2c4e5310c084ee6566051a4c05e5bd31b06ff4d729a)),None)] = true.
Proof. vm_cast_no_check (eq_refl true). Qed.
Lemma p256_disc : (0x79ffbaa17c5fa60f462fc4a6503804b85dda118aba6c20a7a3dd528af02615ac *
  0x79ffbaa17c5fa60f462fc4a6503804b85dda118aba6c20a7a3dd528af02615ac) mod p256Field = (- (4 * cvA (P256 (fun _ => None)) ^ 3 + 27 * cvB (P256 (fun _ => None)) ^ 2)) mod p256Field.
Proof. vm_cast_no_check (eq_refl ((- (4 * cvA (P256 (fun _ => None)) ^ 3 + 27 * cvB (P256 (fun _ => None)) ^ 2)) mod p256Field)). Qed.
Lemma p256_ok : forall decomp, CurveOk (P256 decomp).
Proof. intros decomp. constructor; [exact prime_p256Field|reflexivity|vm_compute; discriminate|vm_compute; discriminate]. Qed.
Theorem p256_cert : forall decomp, CurveCert (P256 decomp) p256Order p256Gen.
Proof.
  intros decomp. constructor.
  - apply p256_ok.
  - exact prime_p256Order.
  - reflexivity.
  - reflexivity.
  - eexists. apply eqm_intro. exact p256_disc.
  - vm_compute. reflexivity.
  - apply (order_cert_ok (P256 decomp) (p256_ok decomp) 0x10000000000000001000000000000000000000001000000000000000000000000 0x100000000000000000000000000000000000000000000000000000001 (fst p256Gen) (snd p256Gen) eq_refl (toPt (P256 decomp) p256Gen)) with (2 := p256_chain).
    rewrite pv_toPt; [reflexivity|vm_compute; reflexivity].
Qed.

(** secp256k1 (SEC 2, section 2.4.1): y^2 = x^3 + 7 *)
Definition K1 (decomp : bytes -> option (Z * Z)) : Curve := mkCurve 32 k1Field 0 7 decomp.
(** its generator, whose multiples ING's ScalarBaseMult computes *)
Definition k1Gen : Z * Z :=
  (0x79be667ef9dcbbac55a06295ce870b07029bfcdb2dce28d959f2815b16f81798,
   0x483ada7726a3c4655da4fbfc0e1108a8fd17b448a68554199c47d08ffb10d4b8).
Lemma k1_chain : order_cert (0) 0x10000000000000000000000000000000000000000000000000000000000000000 0x1000003d1 (fst k1Gen) (snd k1Gen) k1Order
  [((0xcb35b28428101a303eb9d1235992ac63f58857c2f631ee6936d3aebbeddcd1b1,(-0x3b04fbed296cc1277f1659ab9a6f3feba665d74e98725ee2d39e827bc28878b0),0xa14e3460febe2c2316bfcccc1b764790c3b7d9ff92663ea740240f16b583e774,(-0x3c8b95972f12b04b3ca25330b2bd449e8e938229d1fd14f76cae42249ce0dc11)),None);
  ((0x6ad2cb95963c033328d4857d4f8711deff557dd9faaa673b400442833f0efb64,(-0x1b511f0c4acacddb11995426b44becf23d1a165eac933b36c0dae7f6c721d3035),0x2c933e2a83bac0c704d83956ce68e1a07920f532e04e27ff098c8c712d51733d,(-0xcc0862604f39a0c08e4ce0b1d06b205a54268b6c11e626473e3a3a21a84dcfc)),None);
  ((0x9693023fb325cc6c7bc993eb684358ea623d5feea8ff351df662beabd0efdc6d,(-0x203e697a2ff0b71f15bbe8e0b1128a2612545720e641a25d3f0da1b92ba257869),0x58909b0e3b1d179e26d093a041c3e56b0e5fcd45c4d389144042c9dcfcec275e,0x6acbca9638108e08374e790d2f8fb746c0f38f81a62038c77abfdadb56826ebc),None);
  ((0xbc380350880ab969e653d334691ca8c2da83b2acde59e7439ed92d96a9654a07,0x6dd55cce46f1224cd99f821ea3a2f0a9ebe970a9b8ce11ac81430dc918b68adb,0x8a62511fbb16418a37f7a5ead3f099487b15785e66a133e078848957eec143eb,(-0x8696444c9f994992fb103911d7efc9d6af6d7ba29b92732df8ec73823bb24fdc)),None);
  ((0xb68c9cb56c4f0fd3279f2dec6acae3ffbacfb8384548d24892d676cd6beacbf5,(-0x10ab9b201128ebe909e6b37287520fd58164cf175e3decaf3a10f957ce0bfa99e),0x822c3c0dbc5c7d8c3c32320b58378c5c160825393d62371ce9fa174521d13e00,0xd9690ecf0b9571b77cc0887ee3bf9fc63a5c7330cffad04355faeac0e641f21),None);
  ((0x57aaae4151a198790e40eb37fe0dad5ed4d4581b1a82c40124b58ac767ed1ec4,(-0x1a3b3ccfcc7443b593002caea6e5cc086509c6bce8bc4354465c8e5f864c2e02d),0x1e05743c4ad91be301d2b36fafdb42772de829193a4a9e64f4882f9890335c35,0x6cda36c32abc46e74112f34db81c84c8eede3927bb247626df1e0bdea815270),None);
  ((0x875978642d00b859133774fec1878f9e7623f6df9c734f7ed297e920a77b4406,(-0x14a1cfa9fea71de68e71e2ba70b5d638c74f6dd5926c1a65b4b1ea2d5127c49b9),0x478f7c3e95bc1e51fd80a25edfc36ff0eb8d5523f1ee56a882e1aa48e6ddcd40,0x49098a07b728aaafaff50d946bf2d2a513aa2fa43789f3e06840d7ea9bc98e5b),None);
  ((0xf0d3817330010db820c7710c8ee17a157984f4bfd3bafbd4a49079efd7754990,0x8f3723c85ff3164db3a07559b4963e07950769fd94b7a173e978889b3444bc4c,0xe28d41769f5865ab14c24658822fc9961aeadb95b0bfe9fe782f4a0efece7b64,(-0x48eac5c2254e673b8f140471c905697727cf02e9fff1852fad4e9e3e0cd660e7)),None);
  ((0xed7816fe6ca3e42058b150c9eeac31ef8a6bda7ee9e51a0ec33e09f96afc74bc,(-0xa6420f67637bb25071e77ce944474fe9df3cfbcfc86659791d17ebcd2533bdc8),0xdc4792e8a5be0591b11466a7b249cba8f2a33a30c8468e1f561a5045057941bd,0x37d37953fb0fa4bd1da2e0c78a3d18e7906ea3d2bbf400f5c11966075d72b11f),None);
  ((0x62f219d148d24eff34fe56735390098e29b6a2190daa3dc0fbd1d33b92531a49,(-0x104bcc3d6c16aaa6e41de7cd3a7f9df365fe8717877572d43f3d2ebbc048b91d),0x263e40b90e093d69ce9cb94f331276dfca50fdd5d52899f82b416e3f11684268,0xd38110e4317d0ec08c09ffd9caebca5fdbc0a7ce9f3c36d91be61730894d5d3),None);
  ((0xda8eabc70379e66ae8e505f49deb2e1b4906022def4c45ec320e33aed7091903,0x7b5b31118e706a6f8d21e90c3e5ea4663c618a515ed94cb62815179af21e1ba5,0xba974c11f5f6f104f4a38f0164419677e70a8dc4d1e0c492b7e51bcd3a94d1c6,(-0x30a64c00ff8a9a57ae5268b8915895ffdc90bcc50a5f4835a3176aa1164c157a)),None);
  ((0x6c49014b33417076abaadc7958f95908e93dd2886468bd7d27d61cef7c1fdfdd,(-0x4387d42d834ce77c2bdfbb0b5c3cac71a4050b08b24c228ca392b55ebcd59c9b),0x2dcdade930241eb3da0207e1a22e90f4e54b1654ef831673a369c13514d214b2,0x1d7ff2dd811340b382fdc822936038d852438a2146b088d8ab34010335a40240),None);
  ((0xca43b3ab114e7c697fee873576d7b89f909e0592f9e805e00246c31200fb967b,0x1478493006042606ebaf3a073842ec13860fe45dc5db3cdf4018312111fee64d5,0x9fcee97180f397ef7f1ea6a9af040c9da7112c47f135895f18340817b5f96aff,(-0x21dcdd8efd150c268bede9c019716bbfa25aa10b288f800c3643785b508ba348)),None);
  ((0x1b5d9cdfbd96d7eaf397653b120ed6cb0f4bd05bf004f79c2a9fd0bcdf4929bc,(-0xbd2d5b4b69b8eae1df0bfc0ac9ec40498debeffeda634d668b3379e7187a574),0x2ece1528caf03c02071834190fc18b0cedeea0605e73d1a35c9a08e6510e906,0x53ff9677d1ffe6ad3a775007ddeabc1b0ff47b13574906bdb2d6d177386b2f4),None);
  ((0x6fedf4339b46436d0db4e1864076fe618c51a754e1c0ed5708b889c5733613e,(-0x31295687438b3691e3d17d8dafebb1045d575330197ec85036975ce382d6854),0x30f036f2d126d8f6968324ff42731ef15eeb7688f83513e3844fc2eace0af5,(-0x18ffa9bcd5a0771eaf92f0fa74c4b5f3dc5c9f27e00cbaf762a52d5d2f19209)),None);
  ((0xa377ffff0b36d0535197bead9992fee7698334fa5bfc270f64d511cc9ab7c03a,0x28cf04b1cbfe92d8768178540ee817b905160ac1eee61d1a85c9bf4546c1ad57,0x6862083ec76250ae5213dc10e6d2a32a6ada8d51e30e61ff447fc6a4b31ca726,0xccd96b79f4c0b76f998c898d50fda9757e88f96dd1d6b7ecf22cb0bb98ce214),None);
  ((0xbe610814de113647213fff8fc6378b31333e2bac4ac437ff9a702a6734563c9,(-0x2205da3da20d2694587a87007f1b0adffc57375f6010372238068eeb7d646242),0x8d942cc619b325313df8fa55e5c71316b73c92e0c7ebbb2df4d2261a408af0,(-0x104313706e420e07202194031d638c56d395896464c74366718eaff086645ce)),None);
  ((0x92ebb512788e5c3c7a3baf1feaf8281104d50976aef98bbac62a97be2d8b7a7b,0x9ac262009b89c175cbd678a06fd84f5402c686a24698d987284aca6056eff453,0x5451b38f017ed660cdacc050a98f48958c36daae31d09e1aeafad0be1c77641a,(-0x3275e7b129800aed4a29e992243f38ac08a7ae21b931f0bb29f8348a56722d47)),None);
  ((0x9b0f855eb9be64f095aa255167f0f0baf01b2cd3cc72ef8f1444747071666278,(-0xecac6acdf617a12c0fc3cab2cf7b069a048c3961fe6344fb5e0e0a7396f6dafd),0x5debcc719b81e297ece66acf5c5cd90c3479aa2d47d460e8e685a54e458b6bdc,(-0x26a27b95aaf6d1c9e9dd930d18c059da3dae6bc39e15846556d58318a76ce85)),None);
  ((0xc95c70effee378ee51d4695a7e30804db90a8fdfcca618c180cec3ec5c83b500,(-0x5f417de978a22edfa469e24dea0573f9085dfc70f76d02f457fd2960ed6ec854),0x9e624aba3c93476a1c1ee0cb1425ac0e200806a56469fa72c409926db514d680,0x1697f14e3cfdd54bfc46c4b390e76f70dbf980d8c8d01b56f162416b83c20eb0),None);
  ((0xec7e64a924b93bbe0b71cb15729ff63848d6104ae7d55a16ed4a41d45b8fe684,(-0x5968060be05e4550a107807a5d46ff6ef624d4321cad7992e1ba5dbad1798600),0xda7947ff19ca40ef6caf0b245130593d7386691fe132793106e05a3dca8183e6,(-0x5a4e2d67463497086e8f4a0565b68eed5403cb63ee254077874028156d100d63)),None);
  ((0x4a97f998b50e69d9b7f9c654687b8490e7f4a168b22ee05f0491f67c5bcae6b4,(-0x27e9fcb816f540970a38efb8f3bb1794b7b6ec1b1546063d8afd671a732062d4c),0x15bc3684ae2c578048480c3cbe2205afdeeefc3a383c1028ddb1105441b292e7,(-0x40b14e41637f2b157c565d83e2950266c9f2b651777595e52fefa5006b9af2d)),None);
  ((0xc0b764bf04ae63359beb2b4fc6f722f47da0482483379a58ca50aff8c2ea4869,(-0x1aea680db6da70879fdf3fe19077a44c6c265cc2a38ba6a90464722c97c4d0825),0x91139a7fb7c410527a5580e2a973ed19de91a4c86ceefc4df3c5d842dc61ff7c,0xb591a58dc639cc68ee6b80d560bc0b59536beb3a30ab739ab716f9c10557be5c),None);
  ((0xb9f84addcab19fb53a62e79564f6075b848477821df6d6c58668d8e9b2501575,0xd670256d7deb08454ce883be32981339ddc4537d27c02bed4c770daef2e73483,0x8718cd05b2926a4fa5036246d666daad8ca3b5a3c98e7d865de6e8545bd1131f,(-0x4beab7d1b16e8543048c13b33d73f80d14132747bcca21662f6dbc1acc88d7c2)),None);
  ((0xc985b179caa5bee0ef6acefc42c0dec227b196c5dbd0953cc43c5868392e7cd3,0x54a823a57da8af30a8be0434766ae1afc6d78eb92734cc2507b3e0f6efc1a7b2,0x9ea3368323ce7a1ff0b9f641ce3c90557704df763321e14b45e35824eaae12a0,0x14b4404b5ceb4c2c32ff2f4c679f8ac58aee29f289033d697669b1c2566e3a7e),None);
  ((0xa6d04e5b19577537db75701165cc1aa476cbdc92cb167d90af93b785d698742e,0xbdac29b962115ea33a0a115ae783fc7dee05691e6ab124bf8c407a598878b073,0x6cb2cf1d90e23dff3d7e7e640c92991e4765d6b76b6f46cec27537b1a8c3894b,0x2058ae474acad1d6ba1a83b0a8025efa6cdf880696de36bf4a6899e681506c7f),None);
  ((0x4479d94c2f98166b4c1d24655334f9bab459cb5a6c074f1e9bb5b9ea97b6a18b,0x62a078adf0cf64e9f1a14ec0ae8d3742c3de95d9c8838d3019f9614bae96e625,0x1250f56f9bc0090a5305d836dc51e3fe9f40680ec79afbed8fa63c9e881374c9,(-0x230a8719be6d755deb0a1a8aa993f98da9304d2c9426822f51ae76bf78c5ee8a)),None);
  ((0xbe5aafdeb2f0b1599d1b413e816d0ae93363953c3d97e4fd3afed1c367f9596d,(-0x4285da49bf5468a41d4b91f6e39dc72abb96589a72fec0cc2e28fdef6d45d488),0x8d8abd2eb30552dda136a12807e6feacf10e413ea6b6b639125ca53d523ca891,(-0x33a4237f1808ba9e406cedb0a59c1ac31d3b27a8e9e005c420d5745315312a79)),None);
  ((0xa6a6f72a0273aa6f7b6276e647117f1c0e9f5561a551c6238ec167ba7ac03635,(-0x2221c2a4666307762f95d1f4688e7ab60f2529db6fe40017c62077045982a178e),0x6c7cf56ff44b46a99d74c57da41ce0f9bd2448b3a952547fd63066ed6ef96778,0x76e50a9bef7676950e7d97600e37b41148cb63027b6939b7b770f18e36e8cc6d),None);
  ((0x8dee3efccec9fbd528bcbdfc380d106f09ab41277d36c65ed6c4dc4784ea857a,0x7e9109f1ab6d237b52c6233d46453e5890e4548af0e459f783e8cbe2a48509a7,0x4eb04f1ba95a6ccaa9e464453058399cba2c109870eb3bdaa97b0c93f41dd782,(-0x5e27807737148c8a1d60e704012cf7d449c4f154acda8f41f0893af414939b9e)),None);
  ((0xdb3e8ec5d990ec59421e6569d96dcdaecb7f725432c5a4ddb78439afbfe5554f,(-0x23cdecbed11cca3538ea823a592de789c524bf2ab7af7d8e95a246c2d91901be2),0xbbc4178ff9b36cd88a81d1afc5474c5dc2e536b9e0f0acc77f9b2426666e05eb,0x7a549e0377c36bea062b4b76d3a56084838cb9c1278f396e189f824c9006482c),None);
  ((0xf18fad968cb987adc7d7c35fc6ad8974a3fcf82a55e9400e7bf3015e6b558a5,(-0x341aef8155267225b84f83c1129eb67f111f4de69d22cf122d1c900099807232),0xe3efd578d8db5b76be90d381dba2abb6f39f69ef7b3c3e43d78758f5ad0f6f,0x3f41c31f9c9c69fff2b320dbd3594391fd551f32bad14b8b9969d4a7703a652),None);
  ((0x82cd82212ae9dbf4101c8671a40de941c0bc39b23359c41063b171fe4cbf7c6a,0xcf560c624e549b7b75c9dfe917c089bb70899eeb05ce5c35ff039911533569cc,0x42d55d235ad9f1cfc01eed52110f1f6251a63fe8d72fce0a0c99268ca0d158e2,(-0x3f589d84df18f008b2eaafceab870480909ef201d86300eac81c1653b4f4d953)),None);
  ((0xc5ab93dae7b4d1d3c5edfe8bc49fa6ba5566b166494b830b6cf082231fe99f39,0x9e47335685a3f69de417a2be480ca26797fc0cf14ae2c708daf4104a53f423fc,0x98a1848dc472f7c95a311a1583fdbe2a681eaf83c027acce20c6a2fd8b6aabd8,(-0x561c82ccb1289b0635cf65b3e76959cd0f84037300f8739a0e392c864ce97894)),None);
  ((0xde12036f73e80356f7db91954e2ca46c56dcab93ec4efda7fa9e72b8b3a2b20a,(-0x2291c946a0bf46f28fd1deb7521dcf764a2a4477da8a6e9c92db5a80b433cc639),0xc0a33f39c8be7fa875dcdfdfb2c1d4e07c369ca29f61911a3e83c7ec9d02d330,0x1197c34c8ca378d5a7cb32a416af77900517029730af857795a7bc9553b386fd),None);
  ((0xeaaf7c28dae8dfa52783d0b7ef5ebc91aa999f58db631588e00a05856dbef4cd,(-0xb5de42807ef7faeac174cacd6b51f3c6388e61583093b9e142b6e7ac72c56bd0),0xd7254745ac449dd26ca852670e7b2165dc0442973b7deb7f559e4b0a505818b8,0x5be88f160c3da00c5e65cc0efa23d8963f62f994e28b4abf41c99126f8c597a),None);
  ((0x27923dd35874b9d0c3e1b1930352c0c3b0d91412f38fa8c1341f5a73beb4f8b9,(-0x220a74733606e362e6d838e91131cb2614a5f6f517fb18d013d79efc2a7d9a2df),0x61de260f8f2dc641d5671fe3e19dd05802b6d4d77e5d2dddeeb5c649563d2cf,(-0x30c020183634c80539172de50a073a35681439960889802ee4be6e4a2f2b74f)),None);
  ((0xd8880a7ae61955a53b91ef1d5de7f4b9646afd475edbbc8974911329e12fbdcd,(-0x1a4352b65422c6d32a060e95804f8ce58a213f8eb6200b203b728dd1bac4469a2),0xb725d9fa874d106bedbda11a8968671eb7e0704be7ba270241a962b6cb63427d,0xc6b0383fe88d628a967a4b3374ddf9c6a4ce776f9360cd6de8b8f97f19c9a2cb),None);
  ((0x8676b3eae525414b100a173e847e521f75a5c46ae628b3858b1c1fbcbc59daf7,0x1111d10e821e5a493e5805935a47a2af94da445396b2fbe4b738f49f9018edb4,0x46a07b6442e092ac94835b868a5632a799c50b21501075739b6b332df56e0475,(-0x63106a7d28abddd6da9a1efa65c57dd78d6be6b1defea936bbe46a3ee2b464fe)),None);
  ((0xf53ade417a0d913b3b9e411781e6e8de0ff1a6b169ca912fe5495f51c90530d8,(-0x2cfaaed409e0aa6b343ab3719d3271b797debde12efa2a4d581de574a278bbd4),0xeae9baf2ca3ee68febeb56ebc3c7b4f1d50b6434542093974b6ef659254cd8e1,(-0x361da5ae59fe7fe77b0926417cdb13048a8813258c1e0f999cb3919e9f7828ba)),None);
  ((0x32f78aa8da44cbc85c1d785fb24f0e7f0da8ec5386523d436bb3a50d1e52fb8c,(-0x29e21aa577e947ff1d8d971661e2bd7a327de2391f4b7c74d8ccd45b7389e2d75),0xa25a186d2328b0ce0b5fbba78509fa09884c4ae0fddbac11b1aa91b1691e2b2,0x236bd082730989c579c4a37fb62f2f63af147f2e4461ec910dc75e9264298f56),None);
  ((0x2c5edb78f874848d89ceb49fa59a1ff38ba3a6605f567ca67bb74a6e78c097d7,(-0x20b7e56b8b52477c8ed413dce38272d418486b06ace054219d3b6e662580768c),0x7b0be977e66b5633878a63700e4b8d365b2a30e773cf37429f64aa0e34cb30e,(-0x667df3881c4e829712dbce3f84444604b9cafb317016b42f06919a510cfc757)),None);
  ((0xdebcd686b581f6645f94a93467d0ecdf9e4ad7edeedcfeed57d9d6364c78d427,0x10132324aa38de45cbe6b9c79593a1e65702ca96f433c7554d533a3090f641def,0xc1cc0f5d6c6d7c8fc5e1011431013040e05ac70f323f7c05374f90bab2337266,(-0x2a6c6d453241d117ad08179952492e90264f7d9473e67c781f7be0cdf2b1c4ea)),None);
  ((0x81751b61f3b4ad7169d8ac62378adc14043339e3a60078fa2bf394c804c26e20,(-0xcbe432f6b2c45b68fa24adafb3022c0c99f595d65db68931d41b776847576b1d),0x41773b2ac212a8d589d8fad82440bc210dc692de71f45c5818e6b1e5dc2750f3,(-0x1c2924335fc07896590a25980bc056369203e56969626f062d6635cc3910a351)),None);
  ((0xea6ec05c50822815af2653e43c1adabb3be24e602591c72373d731cc1a44a051,(-0x111dfc880ae94af33e82c7217a6fa69125215107a19a2aed7006f49a271b0d487),0xd6aea792a30dbb2f49d387d7012c0513c57b94ce194c58854db63d45feda9d6a,0x80d2dcfc2fc561a802a26c9c240641b035bf2336438bb709d86f03cff162c158),None);
  ((0xe60635d4ed2d254e05003b55d58bd309cce50b703f8dbf6d4700a65d85559a25,(-0x1de5a17fd7679964f07f1944ed01d28b68944e555c146d2592809e0fde5599bb),0xceaf28e12b7a187450995cf3fcd0e783fc8eb49eb8accd328b04975b09a395a3,0x340890367b61b8ba95fcba53deffc80b83227fc04a4b632558df4810f42317e1),None);
  ((0x7471bc58c865f770a22bcb1e2465507731b3ad17d19c55c851a736531fefafae,0x52c23fa572c43b1c14356c9b4abed3b19310be38c0e4535b4a62ad4de4ec89f0,0x34f74538468fd762aacde1999d76caf70fc377458fba5b941d568c22034084a8,(-0x645582eef0e567ca1b23f150258a06773eedd9ba6437d82b180bd819976ce7c)),None);
  ((0xc84b8bb00e0f4407e49fe1be00895dca6d817c8ce64cfebb5d67625411bde644,0x2c6dcafa73fe6c863e18f27415e11f0ab9ba17f5ead495848d7366326283c088,0x9cb6208e3b58bf961b7d8fe1092825ffa19cd2b916c610aa6a7313977fbf2720,(-0x27162613a3c0140ea4b269daaa2b56dd1f7ff207a7bb1bea44a274970f419c81)),None);
  ((0xdfada4b2106cac4951ec538f3d828576d57426ebe0d870d5e091e5b044aa5639,0x4e8135dd97fd642afb502064d179b174938cb3a12874597604bda1dc3a95c1f0,0xc36ffab63b3c27eeacbdbd94308385dbfad275bbf2f1efd2eedb3fffcc4111f8,0x47932449e2339287a45b7f4534a5c3a4becd9324390b6d64352ab68ce281bf60),None);
  ((0x51ee9a34eead0ad899a54439d004a42a2f3fa11be3c4773c1dc6457062e3572b,0x1ed5cb67fb111b420892c7d794c43ba44634d2984517aa30b6a4507e332580e9,0x1a38dbf8965904b741d77a73193f95c44915f3d0ca8dca55c236d04790d2c834,(-0x4e2f8dfdbe4482843e5875fb8e0b3dbd85fdb7d0cc825f5da186d116b6813611)),None);
  ((0x602c9992d00cc6030985312c38033bca60ce74f3a25777862a7288488389cdc1,(-0x273f7d5064c2720ac1a414d7548049caab349431925507daa8faec262d62ddea9),0x24217af342a1e9c7948569ea3ad2a67fd008eb2226f76e30d454b42efb1c69e8,0x268e0b9937fcacd68c0c1c4220f48e9cf647ba267cbb99f84bcacef3e4f9db49),None);
  ((0x2caed624594a3483ad98859bef75a97ed7cc509bd906bb2b23fbf9fbe4e5004f,(-0xd8098d8f20bf73bcfc1de03569fc924641a242782fa4f6be9ff64262de27fcb7),0x7cc91044b3bad5df27c028d022a69bed3d1281c2de52a6b318e9e6a1142cc8c,0x251d0fe794f8d9f24d5c2a5c5fb106e6caf8f1728f8bb3d028ae73606fb385),None);
  ((0xff486a88ac95151d852a5270924d4ccf1fff7b676398e499d324893a4bbb576c,(-0xcc91c5c267b4b96691e7cf29fd9f24bd6e72b42858154531a50d2bb846feaecd),0xfe9158b861078bcff820c4e06d10d88eea026d7aa3efeb8b7ee641e481c7381f,0x5a875717b25fa1d6c1d69018948f0778a17a8cd36ecbebe11028151d97c1e25a),None);
  ((0x8309b9cd7caf364f8a4726b848e574837a1498176583cd38a99bbf35c27c0e01,0x8a24f50091d51cfacd01d4b39c8ee1d3d28d93a1d9c94c30a017fdb44ca5c743,0x4312f486e4e8b90d62f2b067f9b3f3b73f94aab58fccb4d380346aa3ff7e4127,(-0x1d83c47d4bcf751ced405a6580f5150665620f03dd61bdc852dc2ddfa812a69)),None);
  ((0xc3a088da9a740fbef9a36dc94890489302dbf3a200c6aad18428714f41d62ef0,(-0x964d7c0fb3a0610b8bf527ce126416d45f897afa14e91a383f9f70c46b7454),0x957df52861b6dfd75a9c9798b98626bde391b0c5b90ef9472194d803f02a3de2,0xf21b4ea23c0a54711c056be16ec206de776d55a92758318971889262a449824),None);
  ((0x9a1bb41d1a00d1b60cc94b47fe3b071dd38189836c875b949a5bb1b3744d5622,0x778a3e1c7d442d6600aee87baf15aeedf8b4fbcc6a059e55e65b853398224784,0x5cc557b28025685b518490dc1cea9677798e17372e8edd638b53191021329bea,(-0xc8fe8f0e2c03d5e1f83927ce1a10e94d4b7945f42830eeb350a8e9b4fbd978b)),None);
  ((0x738fd7bbbe9afd0e286fa67c1b3d9d1d4306cf1d91327714eb87d7e6678bcdb6,(-0xe9f45b5861c8eb322816215dbb69b91e08621f30bf8fe981838e55950241f8),0x342a8ca566cb1459c78b64608f14d738c23e82811db5a1c8489d717daa1a9b1c,(-0x560903ce46813c4e69df99656d7a6d1b5bb48c0264d487fd1602a44dc2fa2dff)),None);
  ((0x245df8c5a6ad254b4c4c56c0d969cacd2ea321b08b1ed4d55515f34d582f7420,(-0x2c2d3badf9cf50512a306a0da6ca9829624d1cb705114c135e6e45237aa7e6b50),0x52a9076483b57d3b16d330daefddbd5db18784245246df99e34ce690067744e,(-0x986537a1aa744a19c5cdbb7707f824b84564a6a6154d1bf65fd4189b09b3db)),None);
  ((0xb51b78655a4e5a25c8c18dd20190b5571b736e586729fe907b550841e1b6724f,(-0x18a1f274baff4637bfe39b9b6e94360db2f1e8c4f81ccc2d4a6c123ce56d27a6e),0x801fdb31efb304ca480bc8c25e1ec286258e204764701f3ec770b0be640185d9,0x505b12e8199ff30ed1cab364979a6fbca2a0e1bc86331565093f6debb7f2c43c),None);
  ((0x2e95bd430cb40948c3e3069bb698efdada1d87ac3d902f2d55129e9cbdb660d4,(-0x8e3c41f27be5dfbe684c1952181225acc1f1f91d7e5d7cde19b4612886b02ddc),0x87a2799f4898f3a71ad4975487fd7ade180a320d2011a7099b2311fc750aae3,0x17c391a61ae98db2ec4cf0d503dac84b4df753d5affaab28c1c82a190b6febb5),None);
  ((0x61ff0b09e723c8829eb256b349701c992867da5babb9246b4e80f4a06a7739aa,0x5ebfab968388ffa23571a2645339b5336bf455b29bd2bf3e2de7cb9ab06cdfe3,0x258344747f5d717b94ec38ab3dfa5bc7509b96f83781ece63cf8650a6f7648e7,(-0x402361c9a6ae590b7bf32fce7b86297ed20307d6544c327b28ec6fe54f348c68)),None);
  ((0x3172c36f49857e7e10d1b5927bf54091d80521d6b2eb92a8998b92cbb2234de1,(-0x15af07584b8d0470396317ca0af1921db2a9e2791a48f12af26c43ca570bfbd2d),0x98d22433e754fb3204c68fa6d78511ba8cf057378e3fd2c9657f5f1a47fd5d9,0x1b16c3cee6975e5e8ad7da433cc95724fd295f9f0cb01e6d0f59daaf06a3a636),None);
  ((0xc3c8b71e8454afd4fe4ae23209d6947bbfdb44f29f3474cbf6e1de6bfd9974ad,0x170a64f768d64a28eeee5661c4bdd2402d7053fa868e4d86af6a90b185707a74a,0x95bb645720446d0593d6946bd4e5d290331303f95f60ba7ca5889fe27ed623fa,(-0x91ef4c498bc6e95cb76cce220a85977aa1b79b8076ce978ffff8bdccaa5ea7aa)),None);
  ((0xc781a37bd88a0baa945a25dcbec891a96eab33936f3ae33b924c4ebb9ccc91e1,(-0x17e1617a998721b0182e8faa597fd0df72b0aa18451fb93e3499b06939e9694a5),0x9b7acdd0b5ddcaec8b3956ad22b3c12965ed319b036ecd085c022fbd8c16d722,0x879391a45a6a3ce01b8de5e3671728c369c513ad0938529a31aed63f43f6e762),None);
  ((0x5e1c71fb55e898f6e64912dece2b8a3d031f1eaee2af6f37ebd48ca94c1a3624,0x214049df73c3e469b36ea795d8cdc91d96a79c41bfcfff8c51bccbc9c6d19dab,0x2298e6ddb4d173cfb11a3e3565ecd08617cd4e3fde4156fe4ec749cb7d361f0c,(-0x21173658927b8fcdb889b30be48ed09ad3915586d139d93fb6988ab3db2ca320)),None);
  ((0x5adeba52ee6ac0e141ffb884efa7a7d9a940b9950373647c8aaef60dd14e763c,(-0x41fbb9f43245552045b46931e5fce4a9ae98247c9a71531f67f237ce163cd4d4),0x20415cc9ff152e15a3cbd49e8199b645f4d2af5e36fa89310b868f6f6bc94f37,0x2ba266e852bd863c2132869adc2e3957fb154665a692d453097f9073d408957d),None);
  ((0xa478dd7bfcb0fe45115c6952feba38f9de0842736b164666c083b48c9ac6cb1,0x73db7e66067ca1da1fccb9b2842e63896d50bab74547b53395f15f8a3860bc1,0x69ab14d73f9efa0d418332e3e686d8a5d1a8a621cf092ba2c45e7560056f7b,(-0xd6c5040d13867f170281dc10a1f3d77088b9ff7ff920103a26af32bccb05c1)),None);
  ((0x104f2aa37e05be6add58d281a2334816593555f014ce643f702814ec1391f5a4,(-0x60ce18345d1de1baa9b2177f33623a3b7323e5cd991ee5699bb7e0ae5e54c4c),0x109fdcfc7c28d1c7d74eb6b542a00d2640ae6bea152b38be697e6d17388360f,(-0x601c59352eecce7e0bb7240508863f7b4e242a4bbacc5db463c9bc2730d966f)),None);
  ((0xad98ae499f8b968dacfaf69097db01061deecdd4b8b7fe434720aaf6131a6fc1,(-0x27ff65426eff22df724d7e2febfc45a9c0225b6e4eb7e52c5bd330e830d1e361),0x75b7b69eefb8494c65bbc056da836c4543f165a10e791e0537ea9954448b458a,0x21f9b2a89118ea0d45a65194c51595db9b838d9b7182b971ce361908f6544bde),None);
  ((0xe3b8c91ddd9155986dea06e85caade56b09b179572444c1c2007fd77d04d6f0,(-0x3994fdd73316b2c082ed4b0f770ce3e3de6b03d9e0aad7dae386fc41664b4025),0xca913a0cafde282189260a17a94bd4dfca930a780b357608432d78a95cc000,(-0x4c55a80726cbb8df592223354fb49c6b09a932e937c4847958dac8a81ed0489)),None);
  ((0x6d5074103e91fdcfa4597e9b5c32b822c19b5af92207eb477c72ec4f9dcccb6b,(-0xeb9f7547cf28ce81a3475b55b813bae3ee055b181075e93af8c52657899e350a),0x2ead9c1e940e271da349ded728010972eef16fff1c729a7484bb1f847a213c77,(-0xa5aa020f731f7bf5a0c75450ecad692c5b4a3953b570bf7585df7449c7200c5)),None);
  ((0xb0486abb58d31b2dc9704b8502170a38dc4139987db4802a1661a40d857824d,(-0x1b263edc42a10eda7b5fd85cc0fef21c361cb0d58ca086e8e1a35fb11f6b4f950),0x7963a73dd003eac7f479277bf12348c61f9105686ef60abef6ba1e3008b079,0x7ec1af00b1912d4727fe724b5073603d918d3bb13b482f3a86f407e2677b2f7),None);
  ((0xe6d9fa3e6518d4e9723dea425cf89cf627c6b2258bb185785b0f3d91b04e6115,0x95d908869a9615836cca1796f817c40b7d16ef1eade6aef68aec08f8aff8fa12,0xd02c6742500def560cd69c8378152dcb014068be11b433080bfab42ea667e455,(-0x1a6b9c58ea9209a6715cb6ae75ba645c574626024c4f2d2c03ca0526715e628d)),None);
  ((0xd884b65bd5b8dfcbdda21a681b317b0bcbf4d101debc21a38ca7300520334d4c,0x18d1dd4aad1222c3d6287b31e6508ac1105fefbf69acbfbfc937bef81e4b486fc,0xb72038878943152352503fb8af8d7ec95859ac28cfa7d980527a486222ff17fa,(-0x86fbfa2299f2e497b9fab6c6ec4cc5072fcac64cdbe58ce9d90178cbfc27b118)),None);
  ((0x9d1540c9467d3bf99ee5b77f3c9121f1a88e1886ce5c64aa196b85cf6815554e,(-0x179501e9d0550d9d2468053524a232b98cb0c123751e10ddaf1d1f6fc696ff25c),0x6063133a91e06d9a65e78c40ae5b86daceb88f83fcb37eda21fd8fa92d320db3,0x6f8223b218e599b412b93e52c8402bcc951223626cb3aab2d2cd3bb4e97ff868),None);
  ((0xc48405b3038c03bd744a8ed8a5527cb83e8f1929b392d0a6967cbd721bae0b,(-0x224599a9fb5094922086d40cf6b79758db3d2f6118efe667268435c312ae6bd),0x96da6ccffe2a896f63714dc51e67f34b231da646e18e744f52ec9e0501d5,(-0x3ee3441655285c8c804b56dfbc5f69b449c198f42adf1e15e7baf796ac8af6)),None);
  ((0xf9bd4b25fb8787ac97edb42b9bac8deb9ff7ef01b41f5d6575086f1012bf96ce,0xfdbc52ea7fc7f6b0790c73abd565619fdd7c6e5bcded0ea380d3f4cedd6fd4fc,0xf3a1c827ef7253102a34222ee15d034ac50087352d9054cca4b43430d68bf7e9,(-0x2299fd7fabd3b4688ce292b0bab4e31aa4a70d73d88a0077a7e41e438f92e183)),None);
  ((0x95b144bd0405b76f012f298ce4bf1355bccb8671d21cdb26d904bbbeb3860cda,(-0x6a598853f5263be2696b8497cfe9c7d985998bdd2709cce77721c81daef85cf5),0x5787d4c426832d20d8d489fa6aa0594149b1db21a8c61e3d4fa0b1e8a85fd55f,(-0x4dd3f9ab50f50d9e311ca7778762a712ce99c5bc759c3e5f5f1d39a301f8648)),None);
  ((0xcd97a7266946a362a966c2469bb3e45413110726a2c395c2bea221545461dbef,0x8c5fbb3f12a885e4d42cc9f7d7b32451cd675b14e19ddeae726d35f5fed4b503,0xa51c3b8a210e761e5720aa3151d54f5017877324ee06bc83129a84a054d5e41f,0x12eb32b5a2b4bdc2c3055d959b8857ada0efe78a7d6be733ab0858f57947fd5a),None);
  ((0xe53ce2c798d39bef6ff55175192d6b703f4df8f610db8e47bda11627318a4605,(-0x1ccdf346c66dc6fe0cd85e4a1e3c4e765feaff4f9b271347ab832d786ddafe8a),0xcd45fc342ddf3da00a1486bda1c824a726c4618bfd4c95cddfe037159adb1c90,(-0x62dd0864752868233cee4a7f3d8b2480526012960780a91d721f4e4aceeaa0dc)),None);
  ((0x18b9cd189f45726e2c6dfdc2cce38866bc945ec92113621bfaa817ce723adf9e,(-0x25933b1131466a51862cb3ca36165e6855044280169cf9fa73883d9f2bb7a6bcd),0x2635d4eafc3a94784f2155984bb3e982cb923f6990750e9ce624db8849a01b5,0x61925b735c538043def17debd9932a9ea1ec99618a49beedfdb2d0c6b84ed42),None);
  ((0xbcba2313f29e1d97551bf61072f2a6f583d17ef9378ac65a6a5a28639887beb1,(-0x134567f8f42e1a19966da002be0e46676934408e773d13cd6e2e7664dd85b74a5),0x8b21eadc4a233f1e6a67d560a74c022b4eb3667cfe35e759451cf6f6d3c6379f,(-0x2bae76bd18f2ccbe097960f18839bf91cebf33d78e2e7a97b674a52afa3e14d)),None);
  ((0xccb0c2d5a765fae0fa90950f0ed92a38ad56207a00bd4f3ea9da4b31dfc25815,(-0x7fccfa927cfdb9671c64e37c084307dc660f581e21e5aed2c3fc84a75bbc96dc),0xa3aa3090fcd938161215a0727d2beb1d5433c7cae994cbbf13259b0089cc8c62,(-0x97ae0e4324516b04d78a80bdd178e5ce6bc6b8d5b0d91bd2704ef792f39f466)),None);
  ((0xdfedec6f42f70b127c80c91fa38ee129550274bde0c96a7286b93a0f6c39dfc0,(-0x128b360260ab035ec54a737e18e29e05fc6780d161ef7ae366007bcc6b249fcbd),0xc3e05f097709b687554ce48ad461c21369027274adb1a14cd8be0eed304c23e3,(-0x2592971c3a968ab060dfd0a8477740d3a517f147279dea214746e8c7ec813596)),None);
  ((0x24076fdb1fa11f74017e5c3696347308e32b3f0e740977d9c044061b43cc1ca4,(-0x22b8ac85b3ac70e22b550e8d9b10e94619b761281b21f65667820e6830a398f8d),0x51217acefc0cca5339e73a53387db126dc3c312afcf96726a52ce815b9632f8,0x1d83e10fbb80b98cede1db9a501919ffa989a921176b1c3c2d9b4973fa5e8819),None);
  ((0x38894d85c2951105037a5d11369af6d039f62d660aef1e5b13689d8a8da7b17a,0x1de43d275b31a9f195fa24270df5f2ff26f22354cb9cead0eec95a7e4e1f93ac,0xc7c5b8e95c537efd7ea3994c7ae78a109b3e7a267b1f15705122a65e32972f4,(-0x2c1fe1e8df7bf4642de8f86d67419b714d464671579d68921b9183b3f907ac46)),None);
  ((0x43e3186271177bc3437dffd0f295e9a9b2a7a173698f8c15f747e07c7e8ff275,(-0x20555bbd52b2984b051df74468c8a68708e677080475003800730f8759b12b88c),0x1200a837c819757ce0c2c0ec32784be67252edc78e56056e9539d8527a49d152,0x1cfaa9a274fbe8d7e888fae6c26131d467d8cceed9928574ae1518206e3881e7),None);
  ((0xb52c04d03ee5d1a4b1d4065d2e74ed960cb2de26a95aa21abbc0df208ef24801,0x3219ce540d8cb0682860acf0b518be32db1f3d6c62a2146ca9126fcfd6b079af,0x80374660209dc4d06788e2ee0eedbdc009c0fdc4d5727b6350bc6db369254a69,0x32ec3f8abc29b506a219d8f89b29c6a5dd57666a3150b01213363fd5df65e811),None);
  ((0xa25099814b5320e1032c789b522196ca8e997d9c4c7caf884c79019ad46985e4,0x52b45c7342fc682cfe049443d210c83e1f5eaf193b000f86e1fc704170ed45a0,0x66ea1ba7f03016e7b1e42d427dfe309e705f51be0f1a222f082ff1afc82d2c04,0x3161c590fc281f0fd0544e76bc7e89fb339c5a190c997f8380a8912a12a1571),None);
  ((0x722376042ae0f9d2ab08571a325abc3a4436037b5b82183ef03f4c040825c566,0x3de524559d4b8a2bb5903d65293f85beb9ddec8efc8f12c13ea8d33f6c79e57c,0x32e39a0531bbef9cb472cdcb7326fcf0e0cc40b0f00b255e91ed2e61f42fbd70,(-0x12a156acde413de78fef4995ea4d64b5267712b3f100f615f29c7b345e69799f)),None);
  ((0xa108d01af8d3416aa2f0e358342876e2ba7343cd700f6c28a824e467637a1221,(-0x27fc4b54a4e867ce205cdc11269adbf6871af4d37edd9d0d3a1e5086694573d4),0x654c160f97d51caafeadbc8733ae4f7849326a7f838cd3dffcf3ca43ba589714,(-0x6ac978843c60d841a623fccad98312695da75926a3cf1801f10228d84b6ea408)),None);
  ((0xaa93ae9daa82037fbb9b9ac8d39248dd36602f49c2588d2617debf0c252844b5,(-0x1bf04dc23ddc839053f93a94bc7ae25be1c52a44cb3231f4bb9afaaa5ef029f27),0x71a8791b66a132d8fba6faa751d78e7117346ac90eafaac04fe8a02e748d95ed,0x6b90581711036a88b9d3f62b75d8ab018e174eef16460508fbc6b42387335306),None);
  ((0x1636e902f0379b679aafde9343d791a7ab89d449ce8432e3b716d55e3470094f,(-0x441d917262eeeed21f42d0669fb6dbd298aa3d62b05a37b6757a2ff87ac03c84),0x1ed7bd3a29d3f793974d11c2a960fea4bb8627fa737bfd8beee428490b8b624,(-0x52062a60c732d5b241652e4640ad9ff6ad54edf34281f01c4fe786564b332b0)),None);
  ((0x61d87a0cfe2e33fd3d7b20932d6ec316534b451b05017d55ebf66df97c650703,(-0xaa062aed44bdd1a5e5ad58378757b59c1730b939f2aa3264550518060397d9d7),0x2565c38c08bc544a7e31044edef33dbf5b48398d71812bac968c5b07a9ccd1c0,0xcd7b2a6cc9432869c7b8341d2ba32f7d673cf5aa001eea7549aa82456031bd6),None);
  ((0x24454cfd40d319c9fe377ebae48788ea6718ae1dc023e42f98c46838dfdb2715,(-0x4a75fa21f209d865287ac4c4c52a4bbde5e9e37ef15b89b7d9b8181af5dec37f),0x5239069d1e7aa133f5dc8b8d2a2a68a493a7a4d744a35b45bf57354a007f657,0x7932bbcc16777cfbbd5f57cbc7b771dfdcab64c8fbabd6460ad3bfc63053805),None);
  ((0x717534901dbb59ab006854c068a50dfdd20232fe591a31fbd7dda12262862069,0x80a0ba48fe10d7809e6002682fb28e671b0427fdc527b8df9831ca1e7d8f029a,0x3248ae1050c56f9e7f50ce270961745323e43485c95b9badee7b4f513613ec19,(-0x5a7b06db34140ad298aff2fd9da4d9a8552722dbeee31fb6775778b44596f25c)),None);
  ((0x41c5c1a77b62baa51b180e1dcbff6780ece0a093f5a78051c6de090fab67d58b,(-0x2bf688bc61357f87c7ac12c53159eeeac37d98b44a67b9ac998c4029840f67bfe),0x10e6051aaae9fe582d9265e290a533f25b3b43b831051c975afcfa307de0f827,0x46306bcf79e6401bd6822354322dd2536f536b57eabac4524ff47ac78329467),None);
  ((0xcc008c577437b3b458c9b836494bb2bc62d6e64da3f0842ef710401e85163577,(-0x2330b767a4a6232f533b631fdba30cf527ecf10705b960ab7acbcd1c24c99ae54),0xa290dfabae288b648cad6a41a581e2c2464a6422885a03902fa3619684e63c90,0x9bf94f9ab265741dd9f65db9c434ff823dfe69943c7914a48eca57c7bccc566a),None);
  ((0x9294b9f9f80b87f9d51ea42cdc54616c6c8cacf9b6a14ad9e9bee370d90df338,0x7dd7df98fb8f17cf7baf259f7de7b689ed0d8d23a4a8927c4435b25e600bcff3,0x53edfa88af0f3103514150b0e2b057b6810f4e48e7adde498f6db394b794c213,0xd6a62c65f8b50b487863b1bc79903cf90ea51746eac421e2ed06c6f23184d6d),None);
  ((0x27b376e30f76ec47e5e68b16c3a2cf484262baa820f9d61937a65d963ba0a28f,0x3816d9965fddeda9d51149bd47436ac6f2ccdf7a0ecf4e2cb3f052439e5dfbfb,0x6282c08a773f7f264403528c9d2707635cbf47433afc46943a019d5e204445a,(-0xf952a242f3a83e9eb8fd8955fa5295170bf5f1a8b82a65e137608eb955f0d33)),None);
  ((0xf1bf5eae2a0c4c9ef23bb69797a3827927656b3d5c2e1dc0e927cc43f0db11ba,0xd60d7d0e5aac29a5e83ab10161b05393996cbf17bb7ccbd4263a9fbf41efcf6f,0xe449df52561243fbd126ce94724abb193a5849501c201affbecdeccb7e620583,0x6014c03b2e4c140700dff4d4c42084c5c173d46798f76384562d1d4ea8761e9),None);
  ((0x546acca7e813b1998650b06326ef6544d2d72aa88a3413c45c35c5c3ba5cef5e,(-0x2dd8c56aaff45fb1a9bcc2337484db46b624d92d032cb409a3cfc1fb1707cee5),0x1bd642dc4ef524dbd26a465b157f579aa935d187cdcbd4e78e5345cb15ae6b44,0x1c99a50fcad92dbba75a01fdfb6a7fb6285682d323a3d2fd65fb6177004aa2e0),None);
  ((0x631098678fdb228e7be3f87f83e86efe5e8cb7d78b2be931475be0b75e618be4,0x17d6be378b2e949cfb54590858db0f0bdc5e54a60e7567a729268bc42b8e0b3c,0x2655d6f380f09cd7d1d75ca76b5a7606a02bccba346b85f6c46817d5fb763014,(-0x39e583282fe02d4fb19a89201046b3eac832a6612fcba2f53ac812c696abadfc)),None);
  ((0x792c04e8f7afd1b9a401fb8523f74d5c81c76302b10a6726b0a0b54d60e62eac,(-0x16182343f468d0ca66637786f8a1488f49c84e5a81d1c5d65af71f57a5b331cb0),0x395aa435ea517470f1b8ed804752e10f71300cae9ba8c39566383d9721410901,(-0xb43c07ab8d5bd59c7e4768350e8dab008b5b77f63425fc688c2285049439917)),None);
  ((0xa12d5e05dff013873b8147dae62e9e6caf91901e3e357c1cec3858f69f0d4b2,(-0x1c64ec2127b90ce08a4959a3234ffc3c4910002e73e81399618ed530130f51379),0x657a184d9445038dc7ffbdfa1505471ab982c07cf19f9d57dd3a42bcaff429,0x479e117b5162ce41b3c0e22beb4bb18d617ddb78fe809a45a9b484533122348),None);
  ((0x2a2f3623eafc2706805279368e2b1c5c2afa8d5e85e53d5ba7e9d48345cf88f4,(-0x9c55b6ea0590c810380345c9488b0dc63cc8c38d191cdb9be6ff7ff6ecc944d),0x6f38678b5be3190ef9987ad07b4e5417c203818effdc9c4c6faf85108144b9f,0x23a5cd34604d26f5f8f98235d7c6ee0ac07d833cb17d3ddac95ca3d5faa71c2),None);
  ((0x292696c573b74a6cd56a72bbb1bcc0d621fb2ff611aec55bd728a03258fa9ac4,(-0x25439964a2f78b6f4511234230e364c76f962aa1d38c70703632cd16da200a85),0x69d621c5a7b0c270c49ba0ca7e99de18d0796bc6f8d282ed89468a38c21338d,(-0x136b068de713f863bd4563ab698839852ba0ef480e41f640f0bd45e6acafcf3a)),None);
  ((0xaa59b2dd302ea6d3ebf0bd86b52a675096448eaee3e2c37f59fe73a32ea2452c,(-0x1a40d940c552bc44b7b02fca4c481de03513d149ccf41c2bad9311eabca6da01d),0x715b40fb9ec1cc1e8e520e2aaed76e383eedfa9c79bf6d9dc9f3dc09bb2061a1,(-0xfdbf86982c64764665ceee09b37e2b6877990edad98e0f3cfa04c76665e527c)),None);
  ((0x9824e79ee39825411d7bf6454d5ed23a6453d1b81b9b3a889361ae2bb1a01db9,(-0xf6e83a9e304081e099cc77108cc65597ab03761ebe744687604b753a6bdafa73),0x5a6bd85ea484d0621ab42b6367dc2886430b148ee5b9be8fdcd1166aa31fc5b9,(-0x15b01a303d6de17b2b744573a66cfc7ecfd1bdc16af2aff56ead5c0d7fa285ef)),None);
  ((0x1410252b4cd150f805430da05be0fa84af1a95f3bda9041d49b5dac99bde7dbc,(-0x2e94be281bed14a399bb11581095cbe701170af64d95780bf7ce02f51fbb03248),0x19286d36ecfda584698fa927a91ecd982de784031b782c33ee76a7eae61fb34,0x2c75dfa4a8d3a8cccd0a4632606c0da8f98885c20d868816eae4448535e35b8),None);
  ((0xd835dfd81665457b77de5400f8e630b0f3fee3384b8a278f65ff35efbac3549d,(-0x1ce500d8d0a90aba270b773875208042c1a03fc6152ac935425682cb0553235c6),0xb69af51318fe58995b4ebb0128d58ac886e342f5b06cc428541099c3535fc2d1,0xb46c79b69e0c08947b138695305925d9fa600f94998ad4cc25c5f2d0d5d37409),None);
  ((0x31acb4e1b1cf7975d68309d78e4079a67ff7ca16b70a141bca36aa1e38f7816,0x161028e3f437f29c986b2d84ff0fe81999b303ec52b665e062509c2072d0c1c,0x9a391c1f52684501f782ebfaf1cf8b391421a7b0d4f6cc6aa5e17033ede93,(-0x23183f28c71876d8b9c9c3dc7707fc0ff1c181c4c4344bf328c4926d34f12df)),None);
  ((0x9e134159fa7f342a7059c56115bfcbe4aee40bb38561a32f7d1cd882eb497297,(-0x15f04c4f851fd3d06cf3f9d036222f779859daead5158cfde34f0ec5dd8546ab7),0x619bc61dd53f041adb08009e881497f40c7a698486c1dbbdf97c3531fbf7e62f,0x2eb4c2ceeeeb7c714f3b1ab78cbea46338029f5f2381ccb7e75d60ea777dfa15),None);
  ((0xf7f95ba71f70ffae38b8afe471517eb23276f67bb7e8587cbcc1c8f03fdd8edc,0x12f560708de5589c2ae043c9244c045714daf5eadbd8c98aa0614e470e551a494,0xf03321bfea9774a7f16ebc1f349c7f646dcc21e6502484d0bf44edffb2afd5cd,0x30eac31fb23f919df0b2e05df070d5350b6fc5b92e74304fbed32bc8c5a86844),None);
  ((0x775399578055e555c62520e02bf03e8454a29230887ca4369e4c87b9bb0ba8cd,0x85bc34aeb5f7fa0cc635f0f1973bf074123af52ef756c48780e39de8cc7e6535,0x379ed3dc23e6c8379aad69f0a74b6b8e34267433e27bee7f6e92e5df15598573,(-0x1d3808c2398051b042c6c1a220fc12180612f51aa1d51f2d86c0772909ac8d1f)),None);
  ((0x500a08279b3c953b7ea4c442af79ee4fc12bb93017e4727816b4374fcac245db,(-0x7c35f29c1b3bc8a4d69f2ffc9b445f98b3129d0e4e288598b10d0a2773b220aa),0x1906457d64607dd54bb87aa03b9713e5b7d09d82e9234aca09ef7175d7463238,(-0x22995ec69a46033becadcf2c3d4d9bd05caf77b3c53110ad3d8e0a5142564796)),None);
  ((0x759f42169706492f4d893748465b0b891cf451657415eb8bad19754d88799bb8,(-0x19ba19264cfd6c9389ad6a3c6ce837935eca0a488f5e93bb162b1121de5c26515),0x360af57bcf2b0091b18b1f9420c8e6f25e2a05ba8a4ec12e9675212e37c02932,0x4b5b885971c296a9a7e8eff7bb943b4f8365fcb7a158af3d5c39622d9147503b),None);
  ((0x9b2f8851451a0c4a32b655df99f323889b9f437a5ac499423c383f787a29e43e,0x93f0d17930b35150ff01563b015d9d26552b6e46481b2445ad262f56fa383aac,0x5e1297e5c01b5daad6d9150c9e2680f6a8244fa4d9bb091049791ec19136d5fc,(-0x6c3997571678e3278816110d73f8335f349daedd0e66988bb53d4d6ea3876b94)),None);
  ((0xfd694f82ce17714f7e6a833cfa028cf5206ab4c04bab17679f65e28f90487e1d,(-0x24889214ddf5e96ecc980302fa72c01919ea3c594438286a961298487c4b3fa3a),0xfad9527add59633a80bc1c09cd3e7592a414d4ec7d5877d9688df09cba02c694,0x6a10e6ae7a0c355bbf382c23f27a5ae640470cbb1c50858a2f82191d5ac7e467),None);
  ((0x6d66f1633c0ea4e3be369e04bdcfc73efac3f92d72320932c55fd0197c48e44a,(-0x1b831007207d2382aa16071eb5866c5b6fbce624e385d54c8697d8440827a599),0x2ec0d2f3bfd451a06955487f1d7454a6c9b8fb266dad94e1f5d4c40956fcf226,(-0xa13058ac3742a60924c7a8cb34f0d4a7064fd8e1951a097aaa12bbc837b83f4)),None);
  ((0x60fb0dd8cfb159a6cc7a0b308761f2bb17857246959617835ef54989090a211d,(-0xdfe93e25f9a5c0730e7d580c5270394ced55b3578f9fa27a0697ece46483c85a),0x24bd4096c3ac05ba0d5303cca082457955e16a902c7577a0c386b3947621ef35,0x2ea49002bfd29ed6fb40cbe1ac119161856afb9cdf37f953225de64a09882d3a),None);
  ((0x50018607e3d60e50bc5e7dd6ea0060dab9e5478b964170294f64677ef6f5adfd,0xc03bbb77767a7ca496ac970f50d70b9fdaa4b173f25262aa3ef056efde41a9e,0x1900f3c740a1d360e9d3255fa4ad5e78c907ff186bfff642a6ad7c93d216bc31,(-0x31c0432c5e52239b674dca9cdb769b72646ceaff5a1d2ab9889a2fb4046ecd69)),None);
  ((0xcae60ba240a4434e4187587e5c8846b5fb61cb5eed6df31ef65e69275e8298dd,(-0x15c15132c3388cfde23892f2d20bd8615d31e2e4815ac35bc1e588cf0a6fe93fc),0xa0cfd914f616b9c46e07ca946cb5e03879fff07bba46eedff8aa96423cae95b6,0x94482de376f63e098f3e148bb102e857047429389c9f3f4363c8af3e87eaad87),None);
  ((0x27fec578a9edadb2aa5328699c0a3cccb201d9e4c4c46c036041f20898797576,0x63b862d71c47d1f0015581476fb72ec8e8184f46c7b5b09a64751eca379d4d3,0x63f9db7378a8cf8ab62d0f900d1503b04bfc19af98bde118883a2ee393ad696,(-0x14bb191375bf0dc2b820bef535d1ece49581fc8a8e6a5df28e1d03feb2b7fe98)),None);
  ((0xd4f0db18fed8a66a083b386445c250011b57923062480f793ccb65d82d6f2d6b,(-0xdd7aca48986e41b1a16dcbcd39515efeef51292aeb11963ae122dc90c5091330),0xb11fcd7cf078704f177cc3fa5493d96d22c100b379d5be92fad13d94a94ce040,0xf63fb98b8daed0135b1c3c559f98cfcaf5e00e31794151f6a04306500651176),None);
  ((0x58ff873b75fe48d0de02ba7960e477f2b009a1fad79a0c13db1f838a68704f33,(-0x56316a9cacb70890c6e5ae730feb8344048e0af8387c2f873ccde94d1586a8b7),0x1ef0ac079103a6e673206f33a47744e9779bb4463a3a92b9459b514293677710,(-0xc3404f0462304c85ba5e21ed042daafdf9e71bf81507afcf822a02baa7522ad)),None);
  ((0x4a448861c49b177bf3d75a72ffbe403636a0189476ffa033360c12be26583b58,(-0xd0b03bbe5cfe3d5b497a1099fa460a5bb8dc409c302bd24a63e90eae4163d71d),0x158bb13142422233804b63a161e1202df118f86c7763ebb82b7ae3f62f8d0492,(-0xe38b6b8d7a32dd15b7cf7844ecf370fdbf193924ac29e8d3876729e79f72e77)),None);
  ((0x857ad2cd6b2921bd076754555a30fbaa46c691e4d20c90d6ea86468cd38da973,(-0x1a9772865553569fae00a81ddb53874d1963c339e5902ed64c58d16f4c4fdb2da),0x4598d9f70ab888e6d9f1fdd04a18fbee8a6f61585609dd9d1452f8fd79769f69,0x22e0682e73abcc81f5398d4340dedfcd0a23831262df4b1b5d2edaf81a85a94b),Some (true,(0xfc8b6877fac26cb8bad159ffb5054e192d185a695991e862b13a1157137bdfbe,(-0x155f76594446d49353fe4bd3bcd627ac71efdad8b6e9a59380796c8a29ece8df),0xf922c196d29ac926cf1e8410b2dae05488d4b55d2eceabd68ff7362f3dcd3736,0x22eb1ad495bb3dac8915fb027f21c9262f5d2cde7bbebba1faccf26689c0cf8b)));
  ((0x9aaedcd3f59a511859bf395e1ecd70760076101893a56bb21333695455e74996,(-0x31cdefd3f8a2b6f7ac9d84c1b812db1e377b86d873c704fc57200dde822ab11c),0x5d76d91ff21c84f78c78559a1b97c9a5dab9fd762c96a70f888317cecb1cd64b,(-0x1a82c4922c4b75c30f6b7357c9da20d4572827aa642cce3de709b0ae6c3527c9)),None);
  ((0xa9148f747424fe2d32b64be58cfc911fb79a6b7651fd7659709c61ec71d226d5,(-0x8d2ab43b4de71d0238885de6a07bc5ddf36be95f39474c4e50fdc771d2853dfd),0x6fac270e7bee4c1a2e32fffffd0beb467975fa5be6ca013ebd0b6533823545b4,(-0x18eb36749e198cf18c0ace1a7091840280eecd5fef63bb603c064618bf7fe8e0)),Some (true,(0xc1e5bfae7e9ab5edac943a509f0b909de0240ab289c209ced04849d954c1ed4a,(-0x33687a5b6e27f2808be4cfe9ae417fb4cf59a4d0be1121e2cf09e0c815e8459b),0x92dc393598999ef50dd2e04f05af0c1a5abdbe50dccc36832c07778ac78af29b,0x405a499fd8fe27eca9206d6f0d1a37a92b4049dd353874f35122175cf46a0be4)));
  ((0x8532f8eb16203de056ee10bbbb95ff107dc6b10e55caeb78c5b32aa624c44c35,(-0x1228e8d492b6c1c8a7f89545d0b2fcff3f29261e42628dee8605342f74339c54),0x454e00ca72da77a35ef3236089b8ea25edfc0f738c8e96c5576f3cfc8f434067,(-0x3fd97256a9649838473047226974eb30a8e9afa5da2a8d7bf14267a949471f60)),None);
  ((0x7dadbcbfaa91cbbf78b2986150ac4e327edb9c69606820cb5a391831b9aa8b86,(-0x189f5a56acb1560de1839a3ee687e6f957054fff2e006ab7e521e7694d9676ec8),0x3db3203bd2c8fc0c771cc0d023fac244e28ca2e2f079ba5d5bacfe302aa31c25,0x12fa6ec93b7587fc55e87794ab5b7e5aecf6799fb87728d58c2f434067c4bbc3),None);
  ((0x464b37aee9e3cf9ceb318e70fbf5949a9746428a0d4230c392969175c1fe9102,(-0x16a3b1410210ba52d777038ff98d537e22d52002918f73d94225decd56bf9d939),0x134d388d54824108212509f3bf5890b98cd7b300c079e1cddc84d397820e998b,0xc3d0c0958f6370f680ea08cae68cd3ea63e2ca7982264b0b6ec61bcd908fc70),None);
  ((0x90d58ca4958eb13899468baa7bd19964d7201875b86dde6ccd6bd3c90ce236df,(-0xa0a2871abf6c35763894e4fa397fe9dd680fd8d47335c65d4993c8934270c473),0x51f0f05c7f65d4369ca6ce82b808ba84f52c84b1e4c9ff4062796e73758f9898,0x2477a07ac36d8a7d4aa4dadd0e008fa74c971d13307f5c76de8a8af9ccc5da8f),Some (true,(0xf91b01b74c44d50452c012ebde3fb579cafdd97f7d7bf637f019fcaaf7079e9,0x28edd389d8f39d3b98562c44b8d3d1d33311ed1b6aeeb4140d1011133a91856,0xf2658c2fef0aeebe02ae9f230f87e877dc93a3654268ac5c1e48d68edeed55,0x37a2b2d0575d5085e0940d695fd2d72ef6201126c8debad1a346442d31dbe9d)));
  ((0x37b6c936c1f724a47343cb4fdfd95568d4ebe6acc6d9e50901a795723e359831,0x114df2385f87297db1e1b3eee5842c7a40db669bbbdf26632bd918a8eb9c6cf9,0xc200cf83f5b0573421f4bfa2e002e5debf35b331f12af09def4426b25d4cf50,(-0x271831b1baaa910afa64c23ed49266aaa9676d4be8bc9e689165c1ced33c2282)),None);
  ((0x1feaf819ffca25f3b9c197e022f9534f881680b73b166f6322e4c00d66ddccc1,(-0x1c022b027d6a57e696da59fa7c4b9e0a984f97307f1dd96d78704a5598ab266cf),0x3fabfc0cbecf4fa0724716ec29b6d53cc10fc7a8bb39c5d94aacc8c37cd32c7,0xa2679597e6fb1ad3ec513b944bbf51af341e1499323a72613d8b35d57cdcba1),Some (true,(0xe1a5f099e7d10503cf72913018556899858d231be015d0d574c73063a319368b,0xe4a86e1e5ae391799a6a54784af320608018e7350ebf66de116f6126949ae0,0xc6e51c7e92032d6ffcbad2208aa3da52c7c6c1efb0abf924c436254966719334,(-0x6e9faa5ed44bc24f7dacaa8903d0dc80de77040151918a3aa97d83572bba329b))));
  ((0xd1c03969250c4dd33fb07bcbfc4f9e59fb99a37d71a5a1b3fff6f08ca4156e2c,(-0x1c3bfd3d02b8d9d0b094d5964b964f23095aa93e888abc917b0935799ec38258d),0xabdb6e13d915a7368efa2b9a0dba9aa3aaea052264c3d1bedab778f6b59b4cdd,0x604c48bad9bc7d29d9d2a83554c046585b189da448f17e86f53e9ff130cb3945),None);
  ((0xf2e392a1075b09257a56d40b9302887966fbd4a1789052512367e3174d62b5c3,0x2b33c89b2fd6fb3438317a412eec3e2d22092641775d6ff06889b8a529c61643,0xe6730b85cf773a6b2ae97a706734cc2b6f988547ab63a0faafc9a3e73909cb8e,0x1e73dd4e4c6fc5fe9b08fcf2ab9a3cf79546c82fe0016710f0e8463ea306be3b),Some (true,(0xb8eda1a8824a7752dce3f803f0bc739aa7ffcd9e6730fc80874075ca4078d38,0x12289d2a4585011b668427a204407fe401444c44056c536d373dd765039c3fa,0x859674f6f361ac34fb174010e6627cf2f298c57c8d45d4be038467568e530b,(-0x16c5b98510c2e0a1cc8423d9e16f43ce64bfc678c2e7d0d30c40a35c7439f4f))));
  ((0x714ac25124a0f210514a0ffda9101cac365c8d7f76311c6c49fdaa7d96325f24,(-0x266b31d85ed943ec687d67356c766330d106b3fa22a4f0291b60e0215fbbf474),0x322315608cbe57fa7b29f3baef25d52fa121ace2a47735aecc8e2d4840d1e119,(-0x3677574aa8c1971b77c2eec364e4b9ba67e04e7dd6491eeb82ecf45159e2f7ec)),None);
  ((0xeff70c491077d6ec76deb529425a4439fb9f0a65fb05229200a788c0d3b3ed2d,(-0x183cb3f2edf48bcd89f0cf5e79432e872cae006f2ed0a58058de0f99d97a73aad),0xe0ef3759225478f3e3cf28fc5ea4502d86eee32d8ff3acd2f30cb3922a649418,0xd7d132158e1cd6ac421cbcefbc6cdc2b1b4ff1ee02421bd1baa894d833013613),Some (true,(0xf66eeb2ae5c65a6823253261c9092f7a97cb28ad3eb54ecce2149811566c4636,0x6102e36f07e54295d5ef2a5e25015d365d7ae2a07ab768582e5ee344fb6cf51c,0xed395c05627e7540325702eb54fec710d8a9d6cf9df1c41ec4e6d57a33243f95,(-0x6ecd21bf74bd16e65ecce74176e368f5f2c5c40a20d4053d8e1cc03af373e64a))));
  ((0xfb2b929c5c52a0c85b192208855d148ae2de4e021d066d7be9836724bf3c5059,(-0x4f977d9574828c86306b0cdf6aed8ad92014b0d02990dbf137586c1e8a8762e2),0xf66e78e93187c3d9cb55dd813ca4014bc3f2a2c3d9b1261a687d032cf1a41d6f,(-0xd45731d8f4b4173260f33418f01fde0f066609fc5fac5c0026aabb8ea98d635)),None);
  ((0xa538286f0f4dd5abd361615c2a97b79ec03b46c49c35832dfc7ae456d6d673c0,(-0x315219a2e7459b319bf82790ea1e3c721d3efbf8ccb7865d80de9b9facf77cd0),0x6aa17070e0b3ec7392d735df82936360cf47dd38ea3f8adc5efac292ad4e1aac,0x524238e1df80ca77ff4c969fcfc70b8f4d175404f8dd37112e7f1075b1f54c20),None);
  ((0x9838f6c643c678e8ea7ff729a7268090a7103064616ee571f8cc564d0c14db8a,0x439acebaac631e73df3546f57266c3e8b67d3c2e3c658d0e35a6c9ca9cfebdb8,0x5a83b1b8551afa37d5b2b59f71d224448cb3203edeb74340374cf809bce828c5,(-0x638568f8d1b327bc2b107507452f6fe4ea85a626c31d83899ff101d129345b1a)),None);
  ((0x25ac4c4957cfb517208fb3a1da2e8a863ee0692ea7f2bca7e8c07e2e660d9bb6,(-0x19375cb7de2251e5d2a1c3d65d7f78b658f94d54ced0d827425915a693c72f4b5),0x58b4203ccabaa9a8c97232822cd390d975fee72d92b988bf3ecc5eb75fa12ab,(-0x56642a9ad809be45f5258758a626cd23049249553aa1e387551672deded3a6)),Some (true,(0xf34fa0ae9b45403fe0e834b98a53b11064998c305cd2314cb9fbccfaf3738f54,(-0x4295fc1d6dc64f3d4bfea7f7b1bdd20bf532cba0c04ca8d87741e373092dace9),0xe74043d00b6405e4ed05c1e9d1964856b9f697d88da1f036435371022408d68f,(-0x8d112619e2a6d2de319599311f9091ac22b68bdffc4366acdf436b037894edb))));
  ((0xd25bed1f34d120a9f3eb037b4ec798f6a36e21192d34baa62fb7080012575a4a,(-0x16cef645bab44465c270a71d988d36025ad41e7a856a0dfbdd3511b82543d6d58),0xacdaf209a27971dd190731b063094d8a85f1b9d5aee42b5a0aa67901ba3c1fc0,0x6621e1e36be01a38ae32b7bd7b5d1b5659afe5227b646af434c5d65fcb4b3f59),None);
  ((0xef22b56da8a04a7d889068152800e8a662d13200bcf3f8866c73cdcc98b1877e,0x334c33f93eb3e5c279a1447e9862bde7b858584bf1f5f484980cf6b803c310c0,0xdf61d37772905515df3da0d79a4becd9d37512ad258bffdea91f7ebc5d9e60f7,(-0x58508d93bfb429c2101a608cdd174d79486a90060da26766a6c4abd195676356)),None);
  ((0xef0cd14edd1e93bdf5c7068919d57c768f289c5bf9b99d1d0096565e752b463c,(-0x11c5b01ca66687419335ff0044ba62b79136952ec7312eb4e44ae6657b1ae2f85),0xdf38ef758b65b011f594aaaa492dd34901d0fc08b6d88e48b2fdd3bbbd5901dd,0x74b4b6fb5933a9ac365b725955479525bbeb0fdbff0c4ea276f338a8bed4f5d3),Some (true,(0xa74eb1ded9b0a87b22f86c7caf786224204ce368ee629765ca0421fb5b104915,0x314621c8fa220fcb3fc5ded1d6f2034a93e2eb5903a9195bade8b2064fc5189f,0x6d57c4419f670e7be324e061cf45a6ecf7765aca1fdd49b126ff5f1a9002de20,0x16ddef9a067909966634a8201a3a7029d84d12b98f07daf67b1f47aec95ceb2)));
  ((0xba7b6f02dc63af8fd13b23dda46e194d0dc1d899e799c1caca6b0b37586332f9,0x276a7a017c51497eeedcd7706cd329952c9d6d42e375c754003a50d7258b9bac,0x87d798d405241e0e51c5f13389322cdb49d93d71c7ce2c9f31dd9a097bb35977,(-0x31b426db5f882dd6ce1f4d3b9172106d261e7b1a0babb587eab915dd577c2560)),None);
  ((0xb65975493130d4bdb9e2a904b9df8e50e25670b8fa6e6a90d6926838e9648297,(-0x57ecace29589aa31d1ede29fa28a2709c49b765df85b12fcf2496773249e04e4),0x81e35206d4919e5569fc02ca886f1492e8296f823a651879eb8832a7e35052ef,0x19478a94a3ffc940c14216307d5f80c985d64b26c77b342e3186d1149823c80b),None);
  ((0x6755b546bd5ecdad54830125945ebcf11749ff30a79abe014586232733cbb5a,(-0x4427a272715a48e38475b4c4aceb6e620e8359981d6d5d392508302f76339a14),0x29b61490cdb925ca39e03d0416ef15ea0d4c1207d26b5d2f74e4c958fe1fe5,0x35cfa3c92d9a6122d36103b58fd937da8481dfd6cfa9ff2d5a1c2a3fa27203),Some (true,(0x5fb293af30ec24877fcdfc76b4e2fe1d512dc5a1a85675280d2d80ba85be7bde,0x13e053e4ef2311f215c31057374a34b82180b3658c066e631781d471d7bc4f85,0x23c6062dbb21f5927b6f9160a9dac86b19f443c2973a0c9dcc205ec17ec38297,(-0x15ec773cff690867fa79d3947b75b5b656cd811849308877763f9c2edd20446f))));
  ((0x88246dec0a2f5c1781c111b275131f55b126fd8e265fdde8ac3989cb1274622c,(-0xb4b3c3a2ee87cce3c41422d268a41614f18bd0256f42b1ec34e07bbcef8f079c),0x4866b9f9e4680979fc9f2ce503857917c81e1258b21d7eb93ea202fde58d29d0,(-0x2758277eba323c6ced1bcfe32693c9152e74357b04f6d4c676338ac423f8ca37)),None);
  ((0x907e6ca0df806efa454760a45d6531e8911524be961db28481f68854ccaa76f4,(-0x151972f3d5f7be0eca05818e627fbe93d69dfb3a2d0686afa8ca2aa3f4da33980),0x518e78a417e4a0f34d9b640e0cb4edf89d0a78b395c937a48fc08fe2bac1ae60,0xc47ef0a38a666af2add405446b1da51c956778c7ac0966ac27c45c02f7025cb),Some (false,(0x65aa85691aee4e00fc38309544a5890cb087836da9f9f38f27b2b31029e9a47b,(-0x16ea449b183540c2cd64a8fa7a59f4f8d90cd949f5a911532834202d9015c9e5),0x285ffeda645e2f2f17b19984ebd1b9d035ede2f6242279facfac97f7a361c184,(-0xbbbf35929844110f22a56a1821a657176bfc2634b93fb9fcbb1996e8134d07d))));
  ((0xff3b9cef794d59af663742705c924d25096b6e5d78cb79b0c564211264074ab6,(-0xde7730b2dc37d5c4f9f667800e8412900314db6cd2b772b879f84e92ca06aa49),0xfe77d086ca3ebe2cc1b0a40f8dec470a02b093d076f7f77f57adc054a8d1628c,(-0x1fc68aa8db240f8f83e91040dc0a0a24107c30675429969b0cd3e65be1f7a1e2)),None);
  ((0x28d1a2346878b14458df21150493c1bdbf85720bade0927bae4da94df6157f1,(-0x2a3e87c084ce7369a941bd8381512030094e0ef86d754b3062ff62870a4155326),0x6822e5aa0feab6a2963a3d7494be15679766baa37e678333462317f35ac52,0x108f70e28ddeebc636c0402a5c4d673423f8761dd7c4efc4acd2648b0bc73a7),None);
  ((0xb231c5c3633a4d5700f705351d2635f7b72cc9ce54b9cca358fe7c680fff87fd,(-0x179a178a6e1f54f1a7cf7da669bb6a0d53d27d5f5e1930920cc4de3aea620fef),0x7c0940b1038f5bb6a4f5c0edeebceb900c790e2010968343b66babffb285128e,(-0x1d6c497a7942c5f4355a6719262146c6b33d79bee1e50fb371d98d98998acc39)),Some (true,(0x38b417ca4cbb532f46249af4ac8862f278b57ecdf8cf3ebea4f9fd9657768e7f,(-0xcbe249239a5049d7d97840580c8cc40080311120fd1774939bf8a41673f73ca),0xc8f4919f843d57880bc2ef0ece8b1e83bd580bd9ad1c04af5a269722e30fdfa,(-0x970ba4d9c84e76c2dd832acdf59ee8f3fbf19eee56de4138d7726156c39408a))));
  ((0xb7d7dfd2dd60ebc633df4932f165679c28f925b5ac1c11cae367c92589a57d92,(-0xdd716c51e542a17b543cd739e75556b61bf4d199c544417b7815c13aea3eded0),0x8406580930617540324af705c7e73321130aaed62c7a84ffb7b6b26e79ab264c,0x5100ed8993bdb87b04f2a3fadd12cd959af9da94b9cf3fedffaea03acaf0b198),None);
  ((0x75a74a2e990e1651dddec1e928034d4da24fb8884096c0933e6136f675561c39,(-0x67b1033995e20ed56f07653180ec93b1b5faf8148dc3f5f8acc5ffd21457fada),0x36125720763189bf75164704ef08685a7370c43c4e5cf1369e9dfd2dc9d2bcca,(-0x18bb7a5200246f35da1a8c9394631950baf2af5241920841890392904cdb8589)),Some (false,(0x78e4121c61c528cec73a1c573baaf5e75e0287f5d65da61a20ddb245ab1b8092,(-0x1370da42db766dced5721bba83c212a29ac52581f87489f888e56843a76cc18d),0x39169c2adf7efe57cd4e5c188bbef4b92321cf8f4b48a1aa337572dd91dba831,(-0xf44ab859e438fb32b39e6f574723cd15a073823529fa1b3d32a732126cde37e))));
  ((0x2835932153b072f79e4c7e62b278c8fa650162e54b45fad45ff41a6df5f6914c,(-0x181d156aab35cca44abc1d3799a45f39032fcf8279f47abd5924a8df6d8ea656c),0x650c930aa8315704ee15af8ae424edaf2afa6b4078ed7a13ef4bd2a471f7e08,0x1e1e25d1b982fa6c0bd6dfe186f14d0e72deac413a5d09717d10ddb4f221700),None);
  ((0xb58c42b76682bbc037885c1ed2f3e5b40131bec35ee4b6cda64a96de9bcfe6f9,(-0x28211810821fdb4675e292ef15477c8c951a7f13f95fe674b2fff529f19ef77e),0x80bfa33060f010ba4987893a71a2a7c5d0488f8501182a5d1089db6c636b26c4,0x14e714e22f223fb8a803a476f924caf21fd066e4f4a431cc71a231851dcca3e8),None);
  ((0x1f2f4acc43dae13959e540e71b296215e4e36b14f5e0aad4a57be917c5b674d0,(-0xf0f06bb6112e8c7d99eeaafa16c01132372e30c4868de168589767857b1f7135),0x3cc7cda054aa72157dcf04dfd3602442db25f91e2583d566fd032c78510f70b,(-0x787f9ec3f528f9398958f383c42609381ee257fbd4c6570672e49b6586a8ccc)),Some (true,(0x9a1b4b351a71976545db9cf18d4d0d993ab38ca22d3ac906534f821385d5406d,(-0x38814ca436f0d08ba973c3282e3fdb923a5c67bbe4ab95ac259a733e714f24e0),0x5cc4d964d71c669e4be2412ae6f9efa7c4431ffded13e26f8915dffb85f443ab,(-0x154583e702016f8b94c1176ab6a62d6e19093dd60d87c8dfafc14061535dba7))));
  ((0x1d99561ee2c3ef21851d7cacb2ad51f830f56be32f8fb4b90e73a884b795d1ec,(-0x20c993707d70db7c3227017333a28b1efd39f4ab54c5e1d5445cb5676b82ff74d),0x36c195b0d44367701aee4f6850e8e4209a290b880201fbaf27e88e054e21df5,0x97edceab67a2d81bc1560e81e3bcd5cd08c304de46783b1d70d92220384f294),None);
  ((0x9d5f07313eecd9367cf3f9a2a5d3a6d759fb70877d413e70b0313994808c13f6,(-0x716e120a93785898c68072d3eb736d6edfa9e637f1882185ad0cec3dbcdf34f9),0x60bdb218bdeef12025b7b34d8c731d3ca3ad6924083a4c94cb4fedfc828697a1,(-0x2fe7790ef037fc9de9bab82666565334a8906f3409478a5afcd05c346910953a)),Some (true,(0x86ba109e0b28fa365fc5faee1cb320148e0510f2387acb8fd01d66563b1dcdfd,(-0x3059f484af5c824bc1e03ff2e00ef52d4f3fc747908334895bdd53cd3d97cda3),0x46e750a19a6b4073699ea188b193eb6c0dfdaad0c60f5bb533a0b015a6735e4d,0x10258417f480ab1a32b00556b3b64d0181c857f5c8d6950c7bb86818eef21bbe)));
  ((0xe4d6753800c65953da70514bb94da9e03189de16c9fa3086112d99228ef1c1ba,(-0xbc324251dd29c8e12d4c3f93cdb631547045876d5e1fdaa0ddc2a257901ca071),0xcc8eb473f0aed7b059b7989f55003c08a3332346ba2369543b4ce844a2ae6458,0x4ba30e03fb2a89ff93e8bb6d7cbf42bbaec423fb661b3ab9f47ff54f9e5bb85b),None);
  ((0xb25b45c9d1888fdc652a39c4c69383330a7096d97cf830a96872044ab68b58ef,0xa9cc945911a118f7819de8dfb2d7ee2349337934040dae98ff324db6a74d2754,0x7c430d9757e3493314dd9eb95daf7f517b92d927e43453f104253aa9699dc7ef,0x22b8439117fd5c485f77147cedc757230cfdeb6fc44c00312e7d8ec1a5b3cd33),Some (true,(0xcfa74e52d54b5960e255d66aeff17b96874fa000bfa967c727c012ec7d00cd42,0x3b6bb7fb4507a4fb40bf3d0dba976759a117de0ac98f93854db44d1e59d5c7ba,0xa86ffe013cf8b7a08ae0e1a4b3d010c958bd7b14d61ac8687c984999cbd76a34,(-0xa67b9d11b06922951c150a7d1a4e8cb82f5302037ee6c6849ff6950c08f7c505))));
  ((0x970c455202313c987e004ba7b49db651abf429b9aec412ce907bb08f4fe11f63,(-0x2f26659dfd32a5e9d6f5523b9d9b8c475231bca4757fabbdec3fee0bc740e8c34),0x591f7a5d510b998d8529fd4e7273eddbc0ad54a36355e29a9229a5cd3f100db3,0x8a9dee39b55dd11b5e0dfcdccfb00f27e99a6f2f36c200205f6dae9222d3383a),None);
  ((0xbc1f834adf3c42bbe146c8c3d35467280b791cb0b48a6177b8216e77b35688bc,0x23ecf225f4c0fdb8b34c9878ebe48f4832978aff418155e2661690533958c010,0x8a3e4cb7075848f99a2d6da39825f671040f2b2e149ea24244927166087019d8,(-0x73f98cde459539e3ec6184b115fe0f5374524d7c0fba96a0f018315aa1985001)),None);
  ((0x69c7268a22d38ac448b5d4da59aa1263f4e36fe3a979d8070bafbda702f14c96,(-0xeb051f4f92caaa513ae4bdaf407e3513d054c7257822ce59aebbbb5fcfb33284),0x2bb4f88a4120f9971ecef42a965794b0136be6fb45a27fb25fd8a193a005471f,0x445491386e78d38478a22e329f0750e37cc403733c6994529aa5e24197d3e078),None);
  ((0xefc098f9b579deae6d9add81e6ad34c16f3269b81f2e67d38db6e7d5e17bd89f,0x1a0b9d02745bc1f183d5f916cfd50c2c00c8ff901f9404ec8c0b2ce4f476804b1,0xe0892e8812d33faaf6737244d7722b8195f9e4a9cb71e522f074f9b80c8dcd1f,(-0x7de14bf5544e1203aa5cb7e8854164f5abe6405e24e4c47d497d2be32f418f91)),Some (true,(0xcb2234c63216d431e1f3ffcfb9656f0edd2bfc52c3f5ba2b3207d040546d15c5,(-0x12fa537480d5a0b82283c86e80d9fe4ee803b332594efb0ce8cc2fb9ba5e4562),0xa12f444462f6a06244ea6a64ad49038893629c52ece5c5f882a0b9178532521a,0x455ab359573c012c2932ae6ec5637c58f0dc882e3d699ac9a78e1dbcf5218bc0)));
  ((0xfcf1523b82f29c2de448f6d989ac55b2df8473bf03b0568f47ba0ecb0bdd77af,0xa2ddeae7151e1e48d2f1fa6096dbf3ba31dbfe0a771a0764d6aedc7251114f47,0xf9ebfd6118445dfd72b4274d464b4ec3fc58f88543f4492347e3379dc556c70e,(-0x2eaf889bd6d4d5dcda5e63873af5fb11af3cd69e6dca822c09b09aaa0cf4ad6a)),None);
  ((0x490c1ce453ca3fd42de1dd36b26e293a111b987c7deccac16fb161186ca125a,(-0x8183963c1e880ca984e390f9a7ad566b0074355926a0e81789a0741a5c0698d5),0x14d7e90cf073f15697b3fe7d721c8aa0aba6fcc41781500b8ef40136424f32,(-0x521bc30a764d820fcc4bf5408fa5dbb82ccb5f709a8e5e08e5104f7f4c3595)),Some (false,(0x3855482b858ff0489054da3a871a0829ec1abe06156a9c76d133a74243635ec5,(-0x6271b4ad5be1707a2261fb0a5d9405162c2e0b588f4038b8ca3e43ea8cd951),0xc656bfc0bae2d3c6a8761fc75cce3410284db3879d28eaef6c4820598668f0e,0x16cd53fda13c5d6cdefc4a5345c2af3672cd239964123c6c8395b15f15468abb)));
  ((0x2e293dde18e6e71e43395520c05773ea44bad530ab495d611458e2ef46a7707b,0x4e6e2ec13d7395e84e553580a33994c1dde6569c9bac87898ae22c2a8a36399,0x852d8e0b10a8d9224e38314bb417602fc49f8974be0d94349e642b3f50f27d4,(-0x182afe4fc452225009e4f076fa84c46babd634874fa9242f3e85873bf539244)),None);
  ((0xb06e1d39763a83a57fb67b677d4b44e12d71299c9b00785b1112809177da5c59,0x5279c0c64a2cd1d83831c8a2adb62f501a4a327ec666151465c0369af634eda9,0x7997978c234820fbd050c7df0cdc76039ec20ecaafed76c324de373abdea8fe4,(-0x83cc54b7e80023d56b319aaf75cce03370be156ebe985cac3711d4e69a0e6380)),None);
  ((0xb4a04407ebd4b6a776a7bcf22e2391ef82fcb38caa323d9d88f6b064243137c6,(-0x21d947186eb716e0008c1192d40abfaa3837d882553123bc71a16198829738321),0x7f71c4003f9e2047901b5fa8d4afb468bf61f78f2f6b60491897e97727e7779d,0x312f983fb19c81c65f6a8bbd3b711057f708f5d9c6a4c49ccf80512ba7831993),Some (false,(0x3744b45e624b5e48ff3377f3c07d5a48a62ed058e0e7960d23aeab1b85b0fbd3,(-0x60d3b2f0f3d3bd65f73c82864cdf108fbe4bfc2998a9eb7147fbc7e077ea4d7),0xbee97f0df757793c61d5fbe85919d4e10a9adcc36a345c069a8ead28477863a,0xc6188d93362b4af42c0172dc00c388b79ff04dab1abd2a4709d508af5963e9e)));
  ((0x4287ac902cd67c7e2ad5bf1085a4583c2156251d39355ae4d1eab8ae366e1da1,(-0x2f0379cebdcf8b01862dd9ec8dad644fc82f738f0c8d1c90f65eae230c92023e),0x114a3ce1cb7fefdb0b9769f32fbe65b5a04a7c6b584b4c1309fba8e49241a3cd,0x12706ce2c44f82fdee3acd5fd558c6fa97961079b1e71d2c22caf15445069370),None);
  ((0xba3a1732d8f416c8d30c483abba55c6650234c26cc68ee2b4b5b9dbe94eac59a,0x8d246238f874bdae4fcf75e8763862b820f99b05eeb31f77362ee819c0829050,0x877876e468672ccb78fb46130e0e40f8e83707d69bd15fcb5a3096f650add552,(-0x1dcc2339deb757967bdf9293914e502f66c276ccad7477cb147a7a4f6904e525)),None);
  ((0x37775d936f164f8a84a47a9fb920758d15245f8c54c93178d1c4b5cafe4aa748,0x52317ad32f87b39379e368675be05b49f56d0d716702108fd9738f5ffdf2b2c,0xc0481dd7b01508a716455fa5b93260c78a9925e10833e3f5817d3d08b687a95,(-0x1c1dc17d19ad70d69f089ec688d3a80a3aef56dcc4a5e8e0c3d9bc0495d5bba9)),None);
  ((0xa4a58801d8546d2f02a4050f921dab5916a5a5dd44176f76551f3edbafa49fab,(-0x1075ef14e3c08d81a28dba45c08b1e06f150a22869e2b5a407ffb539219a28c27),0x69e4814af7cefe961574ef2dedd08836ed7f78bbe9d0a70ae074efeb8d21f0d6,0x5b74d172714bd86e31661e5a019ca28bcbb48ea45952b7bd8d7b39bde96048fe),Some (false,(0x55a917ba6b5d45d33ea48131d175456e0b896ca85247cc49de12458f2b48d505,0x180140abe5fac4cf1d77936b71bf556b78840db303a307c719815e384b17a82e,0x1ca9b97221a0b88f6b9e7990a405b292b3474a258aebe6ce4b0ca3dd67281d11,0x9a9b3f14758c6e7eb30e6309231cdc8a4ba7634f37aa5f91364973405a1f299)));
  ((0x370e8f0214178e23448c3e2d2bf282e330be2f2967a412792452a0383df0b62f,0x65059ddab4513b38085159c47b874d0de5eccfc73bdd33ee5df49489da2f27d7,0xbd74246d8bfa41d560d11905171d2632e789e105087f2180c99f74618926901,(-0x8437a218a36965a83c5c21dfcdc93bfc3b305231bf3e2d9a481ffa8628ede2d)),None);
  ((0x50cf9a814a661783423db02e4a5e06e785ff9a267cc04fa814022a9de2273796,(-0x4af6002e5a4aa1e94727092dbd0736a11603bc9a999265f126787dd8c7f6560),0x198268ec08d5ee9af4787a29748794b70b0c139d925c6c7de45e73fb2e6f413a,0x3090ff4b17e56771573a4c48d28a63b53c82d396f8f7e398b518f54039fea9a),Some (false,(0xbd812c5cc435aadb43c291fb04112777d6607f416d48ecca063d66c94d240d4e,0x35284eb41bfc06e435eb0c5ee11ce9ac95e24fa86c2785f95e50fe8431491a2e,0x8c47fcaeb6e5016e02b7fb6749969345c6169daea9e071af556d3df5036ec77b,(-0x69d3a33ecd337ec708950d87753f99c7de93ef4ea2ad808fad406c9687367425))));
  ((0x15ed51763216385857d89c815309ebe43b35f69a834afdb5cb1b2cd34ffcf80a,(-0x1a7a121fab6bb34b2a2c65ae5af7729b35cda7abe422b31021f6d108b61205b79),0x1e0cb5d52fc64a717ecb9b74bb3fa1fbceba4fe302a8a0736405fa6d5884485,0x101bd70b8fbb66e2614942cb176221bf9c4a05c7da5fc3c672b3d729e1072dc7),None);
  ((0x9f0934630df8621d6a3c6c02ff916caccb0616bde61bfadbe8e0e5aed2afa375,0xda585da451482e10e7434bba4a1807cac12e818048b35c768d0197dbbe710d73,0x62cc6f67c509e95826c3874943abe01e1b34e1a7a1515277e29d0f81dd615461,(-0x1ca88593fb8d6b173a77aec24ac38ff2c398b4dd4bd3e44dc85017800f04c9ca)),None);
  ((0x7e719a2b2ba07ae6d322194e523da6eea7ede79a3be1ffb3fc12bdee43de1167,(-0xa8b52aad7a50b52dde6510647f2020f540883a1a4e85e5826b42e9b87c5f576),0x3e74062bf5e6746c7ad24276ca76367e9a9882be252bd2bcc28a08db37efee1c,(-0x2a2a08fb9cb7c5aa8af2a7326dcbdcffb232be3345a530170c43b9bb492b7186)),None);
  ((0x6041ba759eb9a87f0bf848fa65af818d3fcfffaa0c80943b90c7449163936b3e,(-0x3b1c6e296e3703eda44455fc694981d80e9a4efa1ac61395aab1c79d969449ad),0x24315cb86e94f9571a749ef85fb69a9f046003c3c7246378941a9cac430c3547,0x1f7eb90f43d2e629ad0c2e815809045fcdbb5412fb43655eddc787db60c94570),None);
  ((0xa6a11f381b330e0eceead13193ca089f4cdce3ed7c19bb361cec09cf272e6dea,0xd3207eddf34eccd95264eb1ef785ba40e78761830b8b35f5a8d5e218682b644b,0x6c7559e50ba70f55299a56648bbd07f5cd440db3fda5992995b8580d28fba5ee,(-0x75afc594b772008a41004134f2eeee395630593282bd2e54e90007b6fc7d8a47)),None);
  ((0xf46c2f33e3c1237340aa05dacbfd10f83f8c6aef5265ffc24313453af50d9f95,(-0x1cacdc58429b1128c6c0680bb762b3c1adaa6ef6359f5aa68ce7197283d3d4c6a),0xe95e67b2c6a46eaf111b32dd14b8f0443e041e70cbf2248c2463bd7f3bbec704,0xb7d2ca34fd0f670550ce0ad852c4d5c13407348db5c495671a7872c51296b1ea),None);
  ((0xddae855b43b0804eef5626ba19b0872ade9f6db236626d5f6b712d8485de4f93,0x31bb01c0c042acc72f4367029559d26982bd7e3603aa51474a132a14e27fc7bb,0xbff6c9392066b6554b3b31a19ef1d2befae9edcabe8e79202ce613f11d1bd419,(-0x6e75bd72f2e737f867d94e1a758c4e48f6d8696ead71d6fc0f41989f232bcaa6)),Some (false,(0xcb8cc9e7e1610e7ae147495b1cb99346cd16d1fd1a824d2174a96dcdebcf443,(-0x2517c7b13af82eb0a8cae8d6169dc3cf0ba19fe2e8e6858d621a90bafa41849),0xa1d895a3344c6111a3fe4c1334fce2aba89fb81cb500f0334def1350913154,(-0x476852854f8dd437aaa45ccc028323ffa94e04d66160b3485b57d9c33979b4))));
  ((0x6eb0a4c6654101fc19a48b24493bdc36f8b080c3adf635bd66af6ee0b562f30c,(-0xfcd69a159c84afa09237ef72ae294872b9d49365df6268d98c42eadc232b0a55),0x2fdc477d79dde29373d318b7ebe6a95315dce61f8eb42a148f71557ded438150,0x4064aff561b3e341730826bb3b7bc7ab835437fcbf60417f6c3ff35b7b0b4d08),None);
  ((0xac1e02a703bd8a93b2db8c85f7ac70c3b53bcd4c94987a57983fbc4b5a5d100a,0xea31e630c93b95004e2778f4eed1958493799a32d719c0ba5ae94373532c052c,0x73b857150c329ba7ca78095d1c24021d785c9fe5e074a07b278a4fee0f8cc6fc,(-0x1d4f6b962109802f17aa579fa68caff623168b720e4281e52bd91732c76ad6f2)),None);
  ((0xc482786c25d5fd584d48080910827d7294258425db3b5a72dd6161b0da195533,(-0x27f9d25683a59fcc160e48e6f7bc9f4a4ff15df019b16747bc22010bf558d05c),0x96d80ae4206baa6d13ace285dccaef24b58437637820f8b107880f5449534294,(-0x8dfef6533da481573a5ad7f1cbfd73a872c41c70342a975a5e3d5b06473bd88e)),None);
  ((0xde5971e7caed1e1a33202f0e34d034130f711b0228874bc2328517f5f0919b93,(-0x25ae9919abff7255fdf97e71aae8bee84f332b151767713a8b99b65c8bd70d133),0xc11f40ce69cccc198c3de18a21d4e3dbe52ccb41b927fda802a988728e0e7e15,0x480a2d303e9391a23a37d60b6749f750393a3e94d6f7d6aa07255aaf90acc8ef),Some (true,(0x94de1b62a13fb94b31c34200a8203819a5523751338859763bac1580594354e1,(-0x1c7a7740e2b9d8911aee191f83c0ba377207e29da630dc25ccd3474a08484f82),0x5691905d8c6f4cc79b6503f5d2ab5fd82f67610e8ff0083977ed657b82c1ef86,0x30ea3c98e7a1a756a54ca70170bc86b1e08a7b5d0da6fd99243b610cd0f046bd)));
  ((0x40516c4575656e7e08caba929e2cdb17434a15f0e0c560db36084174d2b0352a,(-0x21a3ebf1c7195102aa5e280d266b46bc4ef85b76ddfdc2eab6a93c3b3cd91e59),0x1028d0086c71af5503e4b41ebdbf9a897fe01f49a0ce465f2f57cb2a8421805f,(-0xe8f9d3a9b5de9fd2fc19bb2c98d8d9651ccd2df335e1b7f443cfa1d6e4ba857)),None);
  ((0x81337f491b421a272eae9a9fa15c04b2051f83c553346b8dd455a58b813e5244,(-0x8e2d7f6d4f58a52edb6654a6fbb30c9573bb525dbbd963a41301461aba177c35),0x4134f0a3a3e3189e0d355ea61bf07aa8bab278794f6ea825b04657bdde2f9c0b,(-0x13799e1791392b71e04043a769039eab0265dfd1c8e2e933c9db377613d44fc6)),None);
  ((0x4daf9e6b8da1ac05ce09a71d6dd33bdec1c0aa06da4a71dd4b99776a9eee2fc7,(-0x145b7a35fad9ec54bdc66e1c8f9968dbd52559184bef7e06788e5a47876e1f121),0x17931dc6ac47d487f1b9f4808c82d633b0583ebfb9d882056875e4575da796fc,0x276b53615b003c8f2fd4d4b50c05fca7f1bb5b7af6d0e278e105e091f24fbaa2),None);
  ((0x6ee32adf9bd905667f6e3c993ea80794603e47b190ab3d884da71f04e5688561,(-0x1276c12f3d2b311ed825a10cdea5eff6c69523abf0ed3c64e389e821b3af9411),0x3008026d39ab05f7c20648799dbe1053a662a0570bbe0ecea05ce108b6efcb77,0x623f9c36c3e43cbd5fa86be8e942f48fbffb19fd238adf64cd9a576079e3996),Some (true,(0x1db62086d2280bae363dee77836ad59e0bfed1fdb0180fdacdd7f5cddd26e6cf,0x99864a99b6308c3f2086ce0654ae71ecea85c6d77d3c41c1de9f3f9a74e1ef4,0x372c4f0cf71df20c55ca973e21f941387d0e58c210f029d13e2df466be9ec2f,(-0x44b2684bbbc872eaf9ca556f0f3c19975e29a798e219c18c5d6922ca6f22254))));
  ((0x1900957ab1c62a54d064b1d854f42fd14d64c316bfcacfccbb5073278cc6d4a0,(-0x30eb8c06ad8a399a2828e818bb97e1b691022557227e5bb7416cdd7dad43ffd4),0x2711d324e00c2032a4e5e16e1f49096cfb573fbbbed2eac91fc30dcbb9a8b32,(-0x4119ee58bc49f3926afd736872f8b975d1f30737a3c5bd4eac62a5546b68871)),None);
  ((0x4b9aa67f5d122cd5f407198a72c371b23b17a20998fd57407e3c752f686252dc,(-0x64452da231cbfd5dae9abf4d6d174d68a8f44a4a672d710930c387d24056ff14),0x1653fafb5e0e0c345a69ec20f73934372a7ca9a9d1fad885665e5b07eec7bde7,(-0x150b1b7b2391fc7b8447d3c0039bed61c531bfc1e78577f537f7c627fa0809cf)),None);
  ((0xdc9daf63f537f348ad194598ae0480c4641e8a3c103f36df382db1fa4287e92e,(-0x13d5089a9cac98f021e0a8a9fbb47e0a281d08fafde5570899a6e6e19d55f9611),0xbe1f6694663cc10f636f6b5fc2cf8e2a2e90f308ab28168cbb808f53dcc16c28,0x414b89d82164cf4d0dea9fde8e5edef58ea85fa3264ea0c04c1edd7970a0270f),None);
  ((0xcfa5bf7570bc25f4bbc9b00fac3ea75055a13f3190124f9432626507528c15db,0xc95bdf1c3538cc3d5ac2f16e5b32af1cb59cba4174ac24d6d51bfa83aecef6fc,0xa86d76f048e40c03b36d4a1ed1389f37a3d02f75d29da3372b0ab85ce722f017,0x5376f7617d0ff3bc4e725e46e5395def0573f9aea0e1128e75c39a881c74cc0a),None);
  ((0x6634246d4ee908374359e885d8a45bf4d7e5431c80d72438093404d17ecb459,0xb0c59e74174ed60836e926bfe14dc3e5bcfe807abeda9c816db5926dc8f9ec0,0x28cd97a5ec78ae15353260f364df8673a1e08b65d1a400c10aa1423afb18b2,(-0x54b51d14753d255e6079b828e115645d28f1e8c72e24e1b46d8b9117504783e)),None);
  ((0x417f0cb3f44a2338ea7b03192a209625b1a7a86700fa2738e638739270143ae7,(-0x21bb38f771b6c46563116f2c05e308ae004529b47041052115f5b3f1312f5bd7f),0x10c1c380fd3b64d855a31dd02b67b382e78cbb9787ef1c871d7caa7b4fe730f2,0xcf44e9a6f7e101536d49164b78a9f246ac3dd3a2f959f0d513e3ad31884ffbf),None);
  ((0x7d9391121e69533105d5b7687e5d4955ed5debd8d790e24d70228c240958b609,(-0x949c824734b490a43d19dbb34f42be479916478a4734cd635b9e2b2c19fff501),0x3d9970bb9eb74fef04a97ee26fd8161056e382645986dc9fb1bccdfe8f97516b,0x14aea313e8524572c647cd256dcd60225ccd601566624e8075d35364f8bdc878),None);
  ((0x45822432cd567c9e3e8d2313405b46de3874f1463dbdbcdc0ab428b5e3f1397b,(-0x7affb6f9224ffe21ba977d6d56db696ada009ce83ccac0a5f069acd454fe8bc2),0x12df69ac2b677ed90bf86c7588676df0f932994036645736c3e2c2705ee5daa9,0x7ee90443ae66c1ae16287b349af4c43139763811255bf43c00070e6fab829aa),Some (true,(0x8e7270b15ae85de67bec98d3d8c62ef58c0ad384ebbe8533817a850cfaf1aed5,0xbd578f2482e73abb219a2df68716edb8165e73c5f6eaa107ffd47b7577f8744,0x4f43282d506a69897a849259e761dd1029be8449f1d8b619bea5074b95f80630,0x2f3ed20517ec2242f13534abe8fea5284a8e82d12c8b26da227feb4f1dfcc160)));
  ((0x8474e018b6ac5b589f4749e1b38d6adc60a22c9eddd99afdd8e8d6044a4d4e98,0x3d2bac35106420d10d12d2fd78b403bcbbc6b84d8e18ac32e18b2419c4cafecb,0x4488bc7556f28c768f179a133684e7a8061dbfd58b882f3703a6c410bb45e11f,(-0x3e1fbb7b3c12011ec4d130ac8214faa77bff432818c5376ca83ee8b0ccfee619)),None);
  ((0x8df6afc453659936eaa14ccfa4cbd75a49199a5a40838876176e6da39d169bc2,(-0x9e8ea28e492775d07582af3deb4b499d488977db982c7167864906cbab322041),0x4eb9ab5489dc329daa37572805c72f904035fa8bf44b8d9f99e4b55a46b3330d,(-0x246094036ac134e9c414653ad4d4cad513b44ff7c8aaa805732a2bc175a16f33)),Some (false,(0xff5caf8da8deb38d5833f1ef0047eaf5331a5e49802cb29843c99257ffab9b9e,(-0x4f4afe7d0bfdaf08c1ef1de8a5db4b050e37ab17a3ffadca491b6e81239b1c46),0xfeb9c74adca005089180f6ff9f2cdc723552ae695a53e7064bffc28e614e8133,0x9f23aac5fe7c9f95196efc972359c17177312b15d1391b5edf5452a92fef8691)));
  ((0xd8d4c3fb404a84f9a0146faf112eb5f7b8482cd2d86a4736dfdb78f4bd319ba9,0x4996b134763594916e231c0b03d631ab7476dbf50635fdaa5bb7ec05603b8a4a,0xb7a7bb8d2aa8f65a246e01dd6698220e3ce7dd307da950cc2c251b207899f1fa,(-0x43d28988e2b41b7c8fefc4a60a1d5d974e735962ca541f918a09653e1a71cd28)),None);
  ((0x4026935e27333c9997ed5080700d1fe587b0a10e52f3668cb1ff2e53bef165a0,(-0x52c073301d230b4bd976530ffc4248f55eba27e73767111d073c4172319b8ec5),0x10134f7f2862852870c94eb23ab7a54cff22834fdf2621210a0e34d8b7fe8dbc,0x13ad2f5714bec9bd0896559863c59590abe8fbb92a93369bb6e9f92435df0c49),None);
  ((0xe91116989d2c29ba1c402a42220bb6afafd7a1d89c0f7cb6f1415f6b30d72782,(-0xa6ef1000ebaa5e8b8b92924d0c6e563aa2e77d2392e0b82fad3898a1e7b8170),0xd4301c45d05dd9d0ee414a1b37a4f2b9c51dc488cdd45d74a929d6b2f3858a45,(-0x8ef58cdf00fa52a1a755d784880889d9d8af2d6c7d99f14720b35f775653a198)),Some (false,(0xb9431bd34b02aced50f20c6257e46301867c5a638cdf4f97d6beaabeb0b9d37b,(-0x38d534502c0e9ed661c69ee8c3d1d68f85f1e33d4994ea193581d81ed0529b54),0x86120fcef609618cd013e4395212191921fa18fc11f719e13fd058581c9c0367,(-0x1b001dbdb801182f34cb99018f64476ce0251724c140eec01827caa3714c9b79))));
  ((0x9b5ce7f66fb114a71e108c251df1485ab6f06b1e5babf4062feaeef8390f74b,(-0x28a23c3dfa4321156b8a4c3cca96fd51f62de69e93046ca39ff758ceb6a4a8661),0x5e49a29bf68f6115a2d9f96fce7c7c9da5548e6b38c3b667f5d15d3443c9eb,(-0x60fbfabf9fcb35895fe2182f70e5786d1ad2513b16d8cd7380ca355ba12e7c)),None);
  ((0x39823a814982236ee6a11487982e893d758c2a2220c8b90ddb245fcf7db25e13,(-0x2660a1a491f529c433129affb2181ac322c7436b27fe21596db4e180f4df9a3ea),0xceb404d0b69728d81a7675fe8310666722b9e3c623d2d97e4a63530c9584218,0x234841de307bb6e49d718b2a92c00cce5973cede4d56201c8c13cc25bd161030),Some (false,(0x10a640b7d9b34b0c3af15c9366cd9415b3238d3589605fa5986a80406e67b91e,0x207edef8ce1146eb58954073e02df6101b05248167d2c10b09328d8848a2ffc,0x115340efa012ec9783778583466dadae158ea73e7b53b34d318253c9669ebb0,0x51ef578546b4436fff7e79272a08f095b216cccc26593d8d9828db687bc4f5a)));
  ((0xed6c0e2fb9fb629821cc78012ed56697d5579c55a0cd895f5cdfe8775c5e21fc,0x7156f970dd27ebf6c5e39d2ce0a21c59e7994b7fe5c479b58ba3aeb475a7f7a3,0xdc313fe05769a1e62f253da0950f763ff5dc88b9c782d4aadc608acd9bac6549,(-0xa3e10c62e28b3d53b7c230b28603a34aaf1bdb2d9d14e8b48513fa0fcde3a5d0)),None);
  ((0xd3965a5a9eaa7091a9d00594371be33806d078928f6862337d390c3c94b22e2a,(-0x2ed462a5f463e869c9aab305372563fba0bfba6cd1935644f0e3450099218a75),0xaee1313f63a2bcefd1f44f38074ac6d52c4ebb46c87840816b8e66501082d123,(-0x1823853b5e47a2daf27e00c1acf602d04ff5c4c700d0b88f96fe627b789a273a)),Some (true,(0x989d5562e747261a6020d59d7d938a23a5a3bee44bce707feb3a761f414c7513,(-0x3931f933904382efb841a6923e18fb4b81ee178b3e6bbc4f23c329931df5c584),0x5afb36174a6efe4f313910823111c7f40347c1a547a76a0537f291ee8e86831f,0x67688a1489d0ddbb96e1164ee40f9f8d8734a298bd75a1dc752301709897651f)));
  ((0xc39fb3fa386e4c75b1c970948bbf5d83647f7fbe31914b8c887fcf6dcd147493,0x687011c34981d88e835c4a6eb0ab746f167a36ad2d7e53ac5d49dd3c416a22b9,0x957cafd0415200fac9d61734600dbfc438168e759cc669e25a24caa58fed07b8,(-0x3c6bd3bbd474bef3bcf058b5e81cd08852642289405521a306a5f3e906ee9206)),None);
  ((0xb1206b720fe6033a76096668b533a8d975ea4bd5f808b41fb2e3bfd32efb5da5,0x7e9f2642107e59c006b716aa86408949cbbb968dc7275309ff7db0f05d3cec15,0x7a8dd8aec3989614166103be07a51823b10acebecdd95cdc8be183b572d914b6,(-0x1e6436a94643f9f4d7da950efced025023edde04dee70016b97eb76061e46e8c)),None);
  ((0xd4f8f728defb009b19611939ba09a25df988e2c20cd72404a3c9241682d9b1cd,(-0x60af7195ad14619f18d40b24b8f4458c59e267cab3fbd02520a49cc4b147d0b3),0xb12d4b7b7f1fa420da5dc480f92638be49a671d4ece30fc7acb2153a6ab1e6fd,(-0x2d7326be18cbc6c31548bd7fa951eff3276f9792b5321edd52cef3688e54cd87)),None);
  ((0xef067cf45af2b98df43ea206403afb8c285d5f02aebbcaddfa1986f723726cd3,(-0x139882a9e848bba452ec6e16a3fb7a4346c267a1c191fa161cb2c3ba4fae7f0c2),0xdf2d1d7a5a431b3063773148af3058a7473d6657ca55a392aa14572de1d3ce9c,0xb35e9d15a6cc455f94f9a5d96515d9e270e3505f0dc16f596c47078180a18d51),Some (true,(0x26e127b79affedcdeeec2b52d0b2828c3b05db91131849240fa85d21dcb4d902,0xdf8f3e85213cbe5ea2d7b79dde5110ee126a6978f23e22613b5918c314892ce,0x5e79dd158ebe562191fbd2fa8fe152f9e86181ea403e01b13999b58250679eb,0x40941c074814dbe7a0564e991dac2c354e63cd75a49d7fbcd0852e558c86ada)));
  ((0x8e3fa477123b584f2d50b6f126ada57e27a8f2868ca91f8fd9ce85a1f920cf12,0x6ce9ccf9e6bfe1de1e4bba3b96ea4e61687323dd0c229286c5b9840e773121d8,0x4f0aaa46747d95eb4adbca86125d7f6293c4dccedfcc9f8a73cbee870d1e3360,(-0x52b8421a58738d1aa7360bee77b518aeb3421735bfc45a4c9591f6cb77a72ef7)),None);
  ((0x3b49c33d536bdb2e909079c762d2053f34997113063cf72adcab7d7ddec9faa9,(-0x100edb051ee4d2d7f9c4c8cf8856bc51ec484e1e6d900a6b90c0316c985a52740),0xdbb153f3253c651a3af8c857ff62f4fb90a101dd5eb8e733037172174c55158,(-0x177a3fee1e26516302ae122cc6f2334c858a4c97c9a24b822c746cf9993e895e)),Some (false,(0x1f2ec02e6466b6d8c72f9d7f5d8ecd7033ab03d07baaaa43ce78c20480d033e3,(-0x1009a652d825f49c0946f45f32f4861200532b87f03c4bcb1d1c2658d38b72f6),0x3cc5b14dd42943484b4660006bebaf4462c2c2c7808b3014f40777acc84dd7f,0x19340cc1e3bf4444424ea7408097094ca37f75d55d509af407847963eac5768f)));
  ((0x62c33e0b9150e0608b29448fb56bcef22513931a622e8631b498ae54b22262a2,0x9f2c92f281b0895ee9b7e545e27f3ace6ab46654a73c6f1a4e9b1047bdd09e73,0x261a10686feae7e8b9be5ccacb3b3e4f00b2cf66700ec5200d96cac9edaed604,(-0x23e6d7f347213a58d059681629862c5e7155b0df7e39bdc4829878f78bd26b50)),None);
  ((0x98706a34365fc35f0bf58006b8086053e00baca29dff996227401c8ccd9179d7,0x2169e99dfb3766802e0239804bbc4344e1e88f98af765255ca9e884dffa7e3b8,0x5ac5af7b1a509379419c9d9ad8dcee93530ce377f40ebe48872d4e16cc20f4f5,0x41c63426d923b297be645fdbde311e0658ac1f91ec636745593a65a42a76cbd5),None);
  ((0x754e3f3b8b39783ae1d98f7bed4a33a9cb83a2dcf3dd96af1ed15030279b19e9,0x2c4cb1aec2ba87180f1f5534683aa8828df301406b99602ceccf3daf0ed2880e,0x35c09db70529bb4ad7b4597e9943a45422575262b0af898c494c24ed3f796f98,(-0x46e9bb2cb1fa258e9fb49e33ff6951071c6ad1b1b380f53141bbab15f65f812d)),Some (false,(0xe215962cd9f44461723913864b5fbe04968cf55c243b95b2dca2b4b3749e9513,(-0x36da1f57f21d1219e32bc5721e168c9825e4e3e357b69a932ffc5cb257d0ee42),0xc7aa1ef92c47a2152b533c301747e9605a874aeb2af9e7d973ceefd29e55726b,0x513ccac0b897b683c0cc69c56825e1c6a14de4d01be081158017dc981b32cd73)));
  ((0x10e18fd20ebde51bc24c0d0d7726bf8172768691af8284e703a862e3cb39e08b,(-0x4bd957ebe2086ce22b3a19783bbf1b9706ce89524a1e405cf951fb95e0394265),0x11cf8b861e1ff44896f41d77d32a198f32531f682842b043c654e7096cc661f,(-0xa2d41d64f6a6063aaf9814a340bd9017f0f075fe776438861674871c30751bf)),None);
  ((0xcf8a0d4edd568904aecb3da1b921a0295a8dae93d6f44ae1794dea81ce43be88,(-0x2a12ed45c670ee98a67c10f6a17269f4a67d09f39962a33156300974802c65594),0xa8408bf7e3a9ada7b5bd9f37922250bfdfbeecee4caabaa8d0a83428bd972422,0x18e13fe9c7b7a4f4d51952c9e71b0c31e5c2e1b6dfa4a9947dea6099962c7a06),Some (true,(0xb943066b51606d8c7a85933d423ed4b73ef8d41330052d28600934bf15459293,(-0x43dad413ddd96423e489af2b2a389492cb75a7f2587330f473db46bfa1c6b369),0x8611f0d377f32b9c0639838b8824c96bb1693e13360451e8d1b5ad13ffff1017,0x45a7ab25217ed99afb33c07fde2b37792f11596b7310839d3a59dc0e623c6815)));
  ((0x66b7745de248b97277a5615ff0bb462cf6e3c3e46ff057f7cce290d68ec3315a,(-0x36319702a3e94df54ffb8bea06f628b7c0f2a174b196ffb9c7a4ef5e2eb94020),0x2936b4326370af4071e9cdb96b610a98c1a4d623b0bfb109b60bbd931bd06b65,(-0x1abc3c3a7c2c72b5caabd32443a2bdcdf321ebed3a8f6c6c2838b448e657ed7d)),None);
  ((0x68723255cb589f934be2b1545a295f0260eea2b5de3a4a9e94f804ebd5eb2ac4,(-0x16fa7d64cd0ae03aa03e8d7dc3a3e943c7cf22733be3d4f7654d70412a6169a55),0x2a9cfbd69386bcc5158cf3311d469d601b8ee2d14c0eba8f570f6b7d171ad06b,0x1c145085317e07b9bd0e02610ce5204877f4d96870de22f41915a8c5e7143ec9),Some (false,(0x466f29056888918e158f06a3e32528123e32443c985d64841f467cd3e63b38ed,0x14986ed7ee1b0f7e563b2a5154a738229a35e932f78e349a5989d9dec040d3a,0x1360fab38e6e11a0eba55b3c754b6defa8d029b3a0c1465382168f3faccb8f3a,(-0x21e256ec3124350b4c5863fa8181b862610bf55db645c94629bb97e1105f37b1))));
  ((0x805efb2463fb1d9717ad604768050ed07ec1782489ee3db07c023d3ebe49c5be,(-0x20b2891ab200ba67dc22f4c8075606d0ac16ff7f76491365fb983ae9f0c406978),0x405f1e61c914eb3b84558dbca608a792cb59d352106303cf1e2042debe0f73bc,0x3f936c68c6cd67295f51f753859d9b71774e884134c7a8f752ccbfe167331989),None);
  ((0x6457233262f02f78f62a941998cf2f8f0cafc6dc68529823ba96db33339633b5,(-0x832542f306f5e65eff1b4b0d7f0774bc51a8ce361d8ff7b6912d4e97f688bb8c),0x275431284e61b54f3d92f8e61dfc60870d12e2e287bccad9fedb71ac68c31331,0xc67fca21d773599f952863211e4851d48fc7eeb4d04d0b805fe22db13f59488),Some (true,(0xdcc2daec8346af1cfeca154564757790bf9ce15a39f2cc4866ad395471701517,0x22758cbb63637576d2ac1c959feb9ff7cc2e1dcea0a2e13e2ce4fa97d29c8179,0xbe5f7c970b501e31edbf28f95b0e5e7cf291572e7a73ca24e5e003cad833d42e,(-0x8f1e7a0a19ef9c349011f79712e1bfd0c22724e8e6dc7ff24aaa4ffb2b681763))));
  ((0x69b6343cd46e3261cbfba536047eac826a6e5b069d0511ed854203a27dc2d6ad,(-0x2243134f341f6fcdd56ee6a56a2410a3e72eab0d50b36a9ec4b3425ff30eb43ed),0x2ba6f888376936c4e4c882ec61601fb3cbd6ba99c45313fd3c0e3dc42bca26e0,0x566c347b3fca368f1c64d56eb9edcda1ca894c384821a9bdcb5ceb5b2414d3be),None);
  ((0x1d3fe586613e4a9815c3ccdffefedf1f536fdfc332940ccc5ee0db4890ef4566,0x189e245d811841f36c95c4353643810025bfb040467319a314d6c917d30a1bf3,0x35789f337f5aa128f6384a0236dabb9e0dd312654123713fc1acbb2f9199cef,(-0x46205b83730f89002d18f91140e0c33f7c03916946656e5662533b1794c22b6)),Some (false,(0xe913bd3cc40444a7a62bd51a89b61dc8310e47f94c8f56737a7166af88bcf547,0x28e69047f74bf6ac50ffa5f7881a1b265a257a119d0a299ae88038f585823495,0xd434effe3fb7a57622d4b7917becd4c71851025c290a5a2b18427755d84f39ac,0x3a41f26880b20346122f8e2360d7bb2edf8876460eb5146893a447d42350c9dc)));
  ((0xf839838e5ea18c0c3efc4d8a88787af906a6abca84884bcf498e6353b96e4ae4,0x1543299adefc5f87a9907d25d014e4e7f4248c7c82237f6cca1d36ffd6b0cd38,0xf0af7bcfb05a274e8b03d16d79a1e90923b94674cfeb44203d4db955a4d628ae,(-0x619b31bd2d0295b55c586085cd4103f9cacb9c1d977868ca00dbe2c8cb9a87e5)),None);
  ((0x2d5c87588d26f9c1cabb2ad6143c9145ca8a25067d0d0a1d1a941ac54f1e9ea8,(-0x5b244c842876145e9336b20441b2643d8ec5d88a3cfac8d9eea2a23838137fd4),0x809a906b0d3ab52189991b1675bfef4b0294c83a243f7b79403f661b3b6a8f7,(-0x11cbf2d50ff4c2f53601589f78d5b4879c43907f8e8eba36e84be3704829ff5)),None);
  ((0xc9633d6252ea9df0eda9df6c2913cead0ac51d4cd58e74f5da5e89ea5d228b0e,0x30f99e72463cc4991cedcda0e886b4b18b93b35b870ed6bed846ee13cad24c9f,0x9e6cfcdceef88ec1e34d742706d62e2f0ba5e64883642d5124734e5b3a2b2c97,0x18de2cc9b4e1089689860bd83ed5b90e61863c8ddcfd6d63c72ba43b372b7a5c),None);
  ((0xe271ab4ebd11fff0ec68a819b151c9ad16b2402b2fae6c2220fdd66672bd4063,0x3481373769e730cf8898c8df932b9e673d5f283b3bab852aa8310da225a70ce1,0xc84ce4efb3f8fa9722a0e5035f0f7ca5d8d0b541047aa2b4334ce20e89fb72b4,0x3e8c4f8c5e430f50e1aeafc7bca6a33fa9f98526c600f66f568b06dba5e972a9),None);
  ((0xd36996ae84fdc0707b26792cdfab4100a637ffa1177d4a6e9b004ce2e8e408ee,0xb631e3c4513f26570e3dc79010d1cd3cb6e9f7cc6e4509605b5762ba10d134b,0xae9739f0a3145e33b2d28481cbcd17e69d87d183e236a2ca6e834f025322cbbc,(-0x236c7d2a1472fcff35f090f64cb1750ebb6332b5baae7d447db816d871eb3bcd)),None);
  ((0x82f4035a2f943ba8d23b2fd98a9fa96b84620ffd6fb6ac5d80d2d89c955d0442,0xcb717972feed02a6def0e56581db145f04adbedc59e1d33c2333ab3d4c0565e8,0x42fcbbfdfc487c0c25cc88ca628336de7474bc4c291e1acc486445df97be444f,(-0x29d834cd4a4af0125eaa9217a19f67c9f4d495912b418d7deee1f8ddc96c67e3)),Some (false,(0x2359ffe39a24516f73e543d2e3166bb59ab008563c691ea500fce17ac2636f20,(-0x2d14c69c043c987f5a26390d918ec4b869c073c23a80d96869dc2b1abe8db0a),0x4e1bb9c282e52f42ca371a0311e956187a363a42d576f238fd199d705c97429,0x4b5c4488dfcce19f857ec84732d3b691525ef2a3673b6bf2b9fd62f0b050d2f)));
  ((0xa6c01e692657ecd5ec1e19f348128fa4f0c3b5b3a50e715e67edaaa8c56696d4,0x7fd9a5222f554e6e0b6fedce783d9973111d91a8390a9b31ee085c04a0fe9184,0x6c9db79dff105b35c479da2383c506daf903314e4c80e48ce4bfed8b057f4f05,(-0xa0b5976e0366ff781282c5e650c32005c079ff9d3a4245ac3d05eec75cea721)),None);
  ((0xd55caef44ef25aaed3132574aa0fe85d1f4c209a1baafa91991ce5cb60bc5173,(-0xa56f645eecde8ebe2da0e8b26f2f51d07aa3741ad760d36741bbb589c12968d1),0xb1d35cb0c2890d902280aaf98d88d07ec1cd700a578359585295a5d1b5e89a91,(-0xabfc38016eb818c67c5d0b776c4ec10eaa4e6a2be39bbbdf42428b2725323e4)),None);
  ((0xb34e522bc62416885f2e04725659c52d4ca4166ee58e1ab9c9d8154f3d9997eb,(-0x28fe36787c9a6d534745e72f8784ca0de758048c4ad0cb22df013aa472ec4616),0x7d969edf642347ebb81f20fd5a4e92ff500823d4c7e948ce0b393e1aa43fecad,0x446bc9ccf7d42ca8c892905c21bc4833541875713290a3d8e71c9eefe01b63b6),Some (true,(0x96851d01f7c52d4d4054d62374be5022dc74134883f0fb1f914f3960fee83a2a,0x30d834ac9566a232c2d25d7b56652a2f7d2f8ebb5d3794c49e1f064d86bb9148,0x5880433575aff61e2544338f99e10019ba8a5885bbb8e285eb0a0c3c1e0433a7,(-0x1b831607e75c986b21630fe0e34ba6ff8b1a872b65e5b037e409d1e96c688cad))));
  ((0x5061f9b099a4ceac1276439800176691901c478015955fc1f9fb263abec3e757,(-0x1c3145d4567a55998d16a9ecb93cb98e1ee2cf05b53e3c927c4261e5089badf1),0x193d618d8b6474c662cd3984ccbbb8b5c9f977ba59ca04ab4fd0aa797a39a48c,(-0x2ea2403e1233d87c5b113f4fe7ebfc04e49e7022bc0fe37e0b40f889cbb77db6)),None);
  ((0x486c0f1742399bebc1b0e7cf3c2d9bc6da16d8f8c8136944e4e68d607fc7fb73,(-0x266e92b374b565f669a40e122952fde2d652da80b9211c112e2a14d5a35cb9d09),0x147cf619d1c4042fe3a056140f7b2c5cee433a5c84f2baeb78a30a15c0cb7f3b,0x22d6127b7fec52bd2b5e9d06b84e986de2c49b6bd455ca3d893c4ee102a67e94),Some (true,(0x6603975656b3234e973953b7f7f3d63ffa1c7a5e63e3f1358ac7e27a52b927d6,0x458630cb0eba58a33645dea8cde9705c836578e43d704e25887c2c2b92d7f36,0x28a6dca5b293bfbb25b88254fd8df8731a668ca981cb608c80b62ee24339277d,(-0x2a0c5abdfbd2ec9e7b12a24f72daaec7f7813a3eb79f62536ea88045bab00d7d))));
  ((0x4dfeeeb6f36c1a9ca52e3abae72aff21f3f5cfc1f1763a5463cd3f9419518c9b,(-0x19e32cdce2e22e76ca79cc2f5205f72b75483a8b082edc33598b8ae48bc88ffa5),0x17c35978a012c1e310dd1919a566f248d710b81528925ab815656eb12583c9e8,0x19e9ab2ba30f2c922de2744b0639b48ae8cf2a08c50736c0b454fe2431a33b84),None);
  ((0x9054207d23fdd08ad96b38a135a128fb3ef816f72a9d5f1f52bdfd118ba86b4e,0x4036d3a2417d01adb94a9764bdcdc2ec05c8dc9ffd5faf72c2a95f1a8d9ce50b,0x515ec0321ebcaf58aec70eb17ac516bb94ed4b5bbe88f555d6bd3fc3413131cf,(-0xcb6f834bb7bc50401511ab57e16c37ff566dd8a3da6676d0fb4f26c7fed94ef)),None);
  ((0x9cfcb3c3101bca8208a3879277013a90fde33d7e52688c097ada6a913a3e7f3b,(-0x1017e4f1d0f6756e3325fbab147d0d4cab4d5068accc755d5114ab76eb3865cab),0x6044f48821e3f2ad931425afdacee078c6bf7d53f10dac431f464adcf41bc0a7,(-0x3da648d54470211cfe68f21c5b3585cde14ba6150cf5184fb946aec956106d1)),Some (false,(0xfab655ddb77e8b9989c2effc19e228c0c72121537ebd7ec3c6a7e4d048847d2b,(-0x259aec9955075e602511bbf886f4bac016d90035c30e75d6b1b404fac8a5fe29),0xf588a1933e710c76bc17c49c252aae4da57de2e8f766b942ce2cd7c0f372e64e,(-0x5248baee059a70a643b3868d0c7b79512fdfcad05d61228ab7df15ed7844572f))));
  ((0xafd086d090b268755bdf504137173c8ccc46493d1d4201e9916a757f7b00dc70,(-0x278c675261de3ca4f0d7676979eb9ef502711a334c8aa5272188c085437be1fbd),0x78bec22c7fbe0e206b5e67581b608778423173a7362efd32a54c9cd0627e3783,0x3100b7207c0b1d4063b3f590433379f9326d62a7d115b19df0db960a03bd8957),None);
  ((0xa5539e4c2a0cea6c4ede3f6173797a79cf2787f06f7e96e45e56c87a2e153893,(-0x3e8e4a93f20cf84dc0c32dea29055a3c4727303a87c1ba5dbd9caefbf4ccccb9),0x6ac4e55e357a05208fd6c10c3cefe4afce0add5e35c4ce068607442acb15a5a0,0x15c084819f5fbd2f896101e0e1d00b6f4d9dd26804c5f83f6863b3c1466691e2),None);
  ((0x18338c0dbb8c4b2cc1c0beac6fe6aba94372e897eff057934f4f1ab15a411201,(-0xb38a695a1da93c5380c112a9db087834b9dca06f08f10e4c33ca4fe15c4d62f9),0x249b4a3ad420ddc60082fb87de690ba5ff924e6ec8a60544f8b2f35a51e1268,(-0x9033b93af1f66ecbbe2ffe5ffdcb3cec3626f74fe529adbc40601103a405ea9)),None);
  ((0xfbd1ede4f87d76496c35e8768d3cc737302aacce3580b0b9925bbae37021f505,(-0x16404894a70135ff0c82f5e6f653c2ff31b5ae798e4614598a901a20b74f6bff7),0xf7b554a54c3583b2fbc65dad96fd446ce9e472ab7e78658ed9a71e560285c809,0xd562b7c550ac364048c39a2dd3dc4cc8d42ba1b323eab08f4a16ffebfde03591),None);
  ((0xe87d436bed4bff39a438dbc5e0f2a0ab3c426665c18963a027a08bf1b5481af2,0x13cb595c191c391db2851a47c9abe9beb65edc52d44f20a461d571587dfb7e7f4,0xd323477e87412685b906c12295d21db1484f293eb4c13fbd94da16e8e3fd705f,(-0x445b337865f23a6b6912900a08c53286599a06770dfdcc17b11fc8e30cea495b)),None);
  ((0x6ef473b5991356ad1b67f3fac06178cedf101127229b3473a62ebee5a858903e,0x218f0a62919a29f51b3983ca3044d42a06d856f6f86629a485ff4b9cf364d1db,0x3016fcdcd60513b32e49ca4d9f51dd9384f219040798b6798e171644d21589b9,(-0x27c9f876dae9c5c2b2296861a8e0379b34691b763edde6cba4cb355ca45420eb)),Some (false,(0xc9dec5ff3cfd2b46ca46f2e1e2462aaf8500d13eaedffa5622486431a4defc0e,(-0x31922388c281092c1ba5e4a4ae609e3e36825e125ea15c98ae3820cc5f156353),0x9f2f94c6cd9627646be90d73e04c129775840591ba083ccd093f699416bee73e,0x354612d9c583ade0c37d0f3e9fb4f9260f958c1cef5328aa2cbc1d1fed949f8b)));
  ((0x98878284e0dad18c26ef85a11e64f28c050b597a75718c02f4b113be0d7f4566,(-0x82c4ecf9a134c7724310698d6416c0268be1e550aa6e0ca67d40feeac4bd8d3d),0x5ae132b8b5b438f654079920811afd9b33cac5c1548f3e5cf12175a54d34f4ea,(-0x24de16b6f9e71da33228c4b7d7d32173c40743190f6820f59b0d1242ea61c9a4)),None);
  ((0x54872f7c6339d01480fd341fd5d2488dfd73172d95ed1155432e6e89d3398c0,(-0x173f9915187677191d79194277f2dcc280aeb614ef63d263bd79121fcec011b40),0x1be8fe8cbf1d80666b251479fa5a4d11c13f2df74dd8b4db090a25fc872f5c,0x15433c0e5077b35f2076376a7e024c997ad73f2b6cb2eec99ec3087a1aef020),Some (false,(0xb652eafe317f809ebd0d0babb231eba646f4bf5b1c3e02f7e018073689be34d1,0x5234fbdea13944ac44e70202b850aba9bd675e4436ffadf7bc31d876a8ad2c4,0x81da00fcd0eeaf737437244c3d13de68833954516a83d0281d38fda5125be976,(-0x5ce40f76c7b9cea90fcf650a75637eb64973965af5cf2f90b1e28bd3e3ba8ae5))));
  ((0xaeafae58242a90e531e26ad3754e9a553b88d37d07cae8e35fa4185aaeb6f158,(-0x2158ddf0e4eaf201d36866a9196a2cd4e3031c55ea49ed54fc2c2c4fa8578dc75),0x7733498fa4673eac688129fbe8b0d1c1e4a56cb6aee4de10794d19df78f4731d,0x27750281a7811434422aa6eb01a6e60e414b6b07cb9dcfa51d232d07c646c468),None);
  ((0x9b3f6216667833ff2a4bbcd12ac27afe4a51a2d3b07eb0e78d312eca1f7159a1,(-0xee1db49246065ee4c583deef85f2d6ba63dcf8dad8a141e84c4581c9ea952b95),0x5e25d0788cb1268a624ad60999cacfffe004c46530882a98b77eec48bbbc25b0,(-0x25cdd7aa2d2b76116311866b43a130b373a0286b69f4138f623d4c7141031084)),None);
  ((0xf6c614511660dd458e525fbfb354aeb10fcf1e624c2f26086ba3729f78386cc0,(-0x256c4ea7f239c2430100f4c3ab0100ab0a8af6490928f26433eb10afc2b761d15),0xede1484f460d8c4642f226602028c2ec3e99dc86c2a10c22ad34de575b759c7d,0xda5558b380a70579c000f83fd5ee4de8c2a690687a2c25eee60d56e8707c2317),None);
  ((0x2fa523c29a33f7934f4e62b53aef395863ff174d933527da8937c26b6a5c9c60,0xf3c20ffc65214bed9334cf00e5a24691d7f9c08ad15d937943f8a20cf0d3b63,0x8de0da89278a5fd845b16a73a967803eb177fc87cd5cbb802d2fd32b60e13aa,(-0x1ac0388b2ec8a38a61724882e8c7232a165b2d0cba37566c8a3bf056082d2e48)),None);
  ((0x60610490a84968ba2933cdf68cdfad9b184ba2853935fd774bef4e64377ba489,(-0xf066ef23f2825b3c1099c08d68017a723ffef14667a9f0fef20302e2601162aa),0x2448e830f3eb6d2d087624f4324d34346794750e7986d408080f28c28d2b7d6a,0x3ec34589b7fa54c94137cf83c615fca0ae81b378da463c2ba0a696cdfd02bf77),None);
  ((0x3b9e1fd3f452018f0e9c2ee69240a880ee147a50256c489c9338d92cacd255c2,0x1d7298c92417205f0a2a693fbe29f8ec2086dd54b2d5dfab663d6f01c334de5f,0xde244570034669a620dab01c85900804a78e9a15f24f1f2d13289bf8ef24c3a,(-0x1c5a1445607c69d1d948387b9687d926de66b12215c644000743c395a06903ac)),None)] = true.
Proof. vm_cast_no_check (eq_refl true). Qed.
Lemma k1_disc : (0xd5b494e159a6d74de38c3ff7bf6f51ac4093f2cae3b76d6e4c9441485d8d5eba *
  0xd5b494e159a6d74de38c3ff7bf6f51ac4093f2cae3b76d6e4c9441485d8d5eba) mod k1Field = (- (4 * cvA (K1 (fun _ => None)) ^ 3 + 27 * cvB (K1 (fun _ => None)) ^ 2)) mod k1Field.
Proof. vm_cast_no_check (eq_refl ((- (4 * cvA (K1 (fun _ => None)) ^ 3 + 27 * cvB (K1 (fun _ => None)) ^ 2)) mod k1Field)). Qed.
Lemma k1_ok : forall decomp, CurveOk (K1 decomp).
Proof. intros decomp. constructor; [exact prime_k1Field|reflexivity|vm_compute; discriminate|vm_compute; discriminate]. Qed.
Theorem k1_cert : forall decomp, CurveCert (K1 decomp) k1Order k1Gen.
Proof.
  intros decomp. constructor.
  - apply k1_ok.
  - exact prime_k1Order.
  - reflexivity.
  - reflexivity.
  - eexists. apply eqm_intro. exact k1_disc.
  - vm_compute. reflexivity.
  - apply (order_cert_ok (K1 decomp) (k1_ok decomp) 0x10000000000000000000000000000000000000000000000000000000000000000 0x1000003d1 (fst k1Gen) (snd k1Gen) eq_refl (toPt (K1 decomp) k1Gen)) with (2 := k1_chain).
    rewrite pv_toPt; [reflexivity|vm_compute; reflexivity].
Qed.
