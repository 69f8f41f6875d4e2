(** Certificates: the base point of edwards25519 (RFC 8032, 5.1), which generates ristretto255, has the order stated in
    group/ristretto255.go 211, and there is a point of order 8. The chains were computed by a program; EdCert.v checks them. *)
From Verif Require Import GoBase Json GroupIface ECJson NumTh Primes PrimeCerts FieldCerts EdField EdPoints EdCert ECOrder.
From Coq Require Import Znumtheory.

(** the base point: y = 4/5, x even *)
Definition edB : Z * Z :=
  (0x216936d3cd6e53fec0a4e231fdd6dc5c692cc7609525a7b2c9562d608f25d51a,
   0x6666666666666666666666666666666666666666666666666666666666666658).
Definition edS : Z * Z :=
  (0x1fd5b9a006394a28e933993238de4abb5c193c7013e5e238dea14646c545d14a,
   0x7a03ac9277fdc74ec6cc392cfa53202a0f67100d760b3cba4fd84d3d706a17c7).
Lemma edw_ok : EdOk r255Field edw_d.
Proof. constructor; [exact prime_r255Field|reflexivity|exact edw_i|exact edw_d_nonsquare]. Qed.
Lemma edB_on : edPointb r255Field edw_d edB = true. Proof. vm_cast_no_check (eq_refl true). Qed.
Lemma edS_on : edPointb r255Field edw_d edS = true. Proof. vm_cast_no_check (eq_refl true). Qed.
Definition edBP : EPt r255Field edw_d := mkEPt _ _ edB edB_on.
Definition edSP : EPt r255Field edw_d := mkEPt _ _ edS edS_on.
Local Notation O := (eId _ _ edw_ok). Local Notation add := (eAdd _ _ edw_ok).
Local Notation emul := (mul (EPt r255Field edw_d) O add).
Definition edE0 : Z := 0x3788bdb44f8632d42d0dbee5eea1acc6136cf411e655624f55e48902c3bd5534.
Lemma edE0_eq : eqm r255Field edE0 (edw_d * fst edB * snd edB).
Proof. constructor. vm_cast_no_check (eq_refl edE0). Qed.
Lemma edB_chain : ed_cert r255Field 0x8000000000000000000000000000000000000000000000000000000000000000 0x13 (fst edB) (snd edB) edE0 r255Order
  [((0x36ab384c9f5a046c3d043b7d1833e7ac080d8e4515d7a45f83c5a14e2843ce0e,0x2260cdf3092329c21da25ee8c9a21f5697390f51643851560e5f46ae6af8a3c9,0x4932ee5d776beb664d1f9c33cfb9f26a26b67752e722564d6f2645ffcb8fe84f,(-0x2b32889752bec2e0a8a2e751d76a7a91823ea8b28c85eefbcf574056192fb00a),(-0x6117d5d0e105be83b5f262e796bbc8d23009f3df9dadc54115f119275c394d3f)),None);
  ((0x203da8db56cff1468325d4b87a3520f91a739ec193ce1547493aa657c4c9f870,0x47d0e827cb1595e1470eb88580d5716c4cf22832ea2f0ff0df38ab61ca32112f,(-0xe1da5e9d72a47e4d2fe6c40f2eedfe7b11c0ddaa1f9796bdfe928af039931d1),(-0x6b00376e656d4fe9af91a4603c84dda12f93c3a939956aa5da79dae6214948c),(-0x53190c49edf50a65ac47f20d2ecfbce362cf1878d820acacf90575bb65b60821)),None);
  ((0x6742e15f97d771b642862d5cf84ecf93eb3ac67b80698b993b87fdbc08a584c8,0x21d30600c9e573796ead6f09668af38f81783cfc621ee4931e2f5ba9fc37b9b4,0x202c245ed0785267ed1a5874e99c07d74b2259e6be2219e4d6581fea644b8e24,(-0x128a443e2dba4dea0968091995bf2419f7ab13027edd4a28c53639d30a842dd8),(-0x363117c83298c2b8a5160c0e3507b1fa93e847f17d1bf1f952433a11c68f9731)),None);
  ((0x23a4860627e53aeeb8e22b1508249c9109578d33e7bf237459b2596d6c28f9f8,0x709696f2827fc3729f980f2e3aad6e78b06a11ff8e079c27d87aab37c16727eb,(-0x4a5d9aa99cc9a7720803e55123da0063a2c2115ae193a3cdb93db82e58de63c8),(-0x1aebd4985fb65e4a841ed2ccb218d818d4438a934c4da685228276728fdcc100),(-0xb397897347d8313e2e711719427c31c0af143efcd80ac8bf6d582fe19deca36a)),None);
  ((0x39cf6c6917421af98582561d0b39567de6033190f97852fc4fdd40f6977e4f26,0x4434a90ee12cce6b7ade93ecc0f88b78b41205e74c8c4038f92d394f3a06d269,0x591b6c8f84d72356c805c3ecf3ed96e069f017be2d0777e57c27e5034748b7ea,(-0xba8fe3d3bb690ef053453dc9f21e34be70da0d99e27c14c23f38b5afc517b3e),(-0xa92d7c9b98d8ce6503710b943d96cc5f2f180ef8de33f18111e5a4c5e36194ee)),None);
  ((0x5fa64200bf829139cf290f9871d79a8b8e846fd6ad9d678f1517a0fb03ca40b,0x3d199eeaf926002872f486796fa8aa4c99f1125e6e0d196afbd695af17da0926,0xa3bfc9b723014b1d4b9c29a8d5e3b35380ac9606667c6734105633540de00bf,(-0x3a2edafec863fd2a098571ea47f684ed2837e03e96d49a562ac3ca6aa0f58e06),(-0x6178a0b001b6886ea5191ef3e206a71f5412247bd9f77f484e79f86d733853b9)),None);
  ((0x379dbeb1a97b5f082402eabf1ad28bb78a837aa426237a405da2495bf0cfdd87,0x28eb9fe001ce99d063f7995348559bfc233261c134094521fda0e7ee084b86fc,0x1ce2f6f6e21f121d8b668d33d5ea98154e882218aedbc38840a3286406bc3143,0x2e223b03712a36eea6627f152664388378925799eca4f26cda69d0cc8c600098,(-0x4396728a491bcdf71eb482179fa968ed89166cc0c25827b14dc91ed3b0e97d49)),None);
  ((0x5e7e07ed4e1decbfe6e9cbc126905449d4b578fbb561576d20b8bcdd0cc2a556,0xf55755c51f102796bf5ebaa81d3260e7d1b3d9ac127d9a80e142031566cf6c7,(-0xb155c9dc23a5ecb59b9a997a2707f883deeba6bcd99441dba8cae07f945fc5c),0x79c9e36e36e7806137bbc0f7ef9997f3c86fcbfd290bf203b79a25489889752,(-0x2c40bfa6eaf16fae31e3602f139b6634e0e49f34b21952e1c6f51286f9f06340)),None);
  ((0x2eecbf81b3d084733331f9eefa70d42621effd9b303961d25409333c82cd340a,0x54d2dc2da137827c4132d9b740a119b6484d4d4849e6e074b89cf764008b93e8,(-0x43eb572c38ff12145b58d84ba81b7a3ba2395d59c0058965d7f46d28d484ba4f),(-0x155df382c6a3657eda30e85c3cb3d64ea7ef71a97bc85f3ae9d098ff87e2af24),(-0x49e4b5651085aae800604b52467b5e3b52b51c501765a7df129a81928e709bb9)),None);
  ((0x6b113a52f9f3fd0590ac7cb6c8cbb37abcf147c44b2ae11d9151c7d55b4a2b68,0x1aeb017159697e792eb8da1805519c06296595f4f57996c590954359f327c13d,0x27023ccf4e043baf4623495fd7959973a03f847fe30190f771f22ba2e0d50bfc,(-0x3814e127c7edbee7909d8528c239408804a0f27326756069b86677622d959620),(-0x4af34e73cbbb2c3c9c112738dfb1b0b6e46d3774fbc0a2f0872e48f4fea0de22)),None);
  ((0x3c1ae7527612d38bb541f511fcc6283d8482afe93115b345ecd2bcfbbd1317f7,0x51c91c3f9d7e57eb786116c8545f90fa67f5e8b62c32ac4512015a20711364e,(-0x53e5a7c6f9f663a066b839303d88dbcf9cae6975008e8abf7d8e8925eb00cb42),(-0x208ff604bada1770ba69d479021d28b9179e42cb825137f2f26d8b71e6e50fd7),(-0x604772141849e65161c9d10a3ce0383798c43c6da8fe1619aafe23b31edc2ed3)),None);
  ((0x7d13c0248b891b47eb524f2692008e2f97b199bac426cb5902b9003a29ded6ea,0x59a976ab2c01a81a91f1a56c75ccc77a9e1e9e878e9fe9c3952080a6805b20d5,(-0x1c04fcc12efc1ac7fc10ffa6936a6723bd850fb0f335f41b5b1a782446404dc6),0x31f1482f3e63ae8bc456266a021808ff037f5e0e07a2a98e104fd246ce0340be,(-0x43aba30cc486d7f6201bdd61d5ee84a91f6f7a4b52aa4409de593b32f83fdc00)),None);
  ((0x17d5a9ff7f338d8ee53c26531f9a5d4ad2718234b5d46a1435aa161031b1c9de,0x73022287d3b73f6c43c3f9071cf0a87aac83dabd44efad1de010d564a4f6af89,(-0x3b6a0cf1b897e2d76d6d5fbfdcd3ae1aa62bf3b3591b562a38902fe17cadee91),(-0xa1db02f5bd7ca999d492c0f4c55ecb4da7d77b573402b33629ebaaf71b8626e8),(-0xf98f18c478c605a478d2ae03e5750a2be54079d20eef135e02700a287bf3fb41)),None);
  ((0x7a8bc68bf5f3ed3bed79c11bf2d6b20cb84442dfe4ae185b0c2dabc38e74b8a,0x7249d7c47afd427018b32d20a2a81307bddc3e039574c80329aa786a22288901,0x62e5a854b42c13f7e7fe731b7022e1d45f03266df779db14910debaf71330b97,(-0x2ace3899743cc74858d3ddd8966685e23e1f6ba09329e71b47ebd91fd613cfa8),(-0x6c2707d4380d6c41e793565d3c132263ca57615d02855341d8e7e2a3ab3dc989)),None);
  ((0x5b4fd9f4a9a79b1f34a4c426c1a467d36560338b1a5457e83254935c2b32ff02,0x40ebd1230468fbf85a49aa47278ec1375a3cf9c2ecc5bbdf685b265433b08d46,0x65965fe465add53766acf0ab38fa239c3551a958c4cb51885ffdb9f6dced81ca,0x129126d31a52cdcb6a761548527499337cad28dcd4cfaa9fce4601fe284b916a,(-0x7d6ddcb85ff499499eff7b1c76e72e3af585573fcc31f34b7fb1712ea6f4d4c7)),None);
  ((0x5de7faa2ee4e70132f541f79ca07cd54a39fe1347a6844d19e9d678a8411a565,0x2c9f23641e1c2e0aab8ea9926b432d92c0e8bc08901d6ff6df85e4cef854ec36,(-0x2036382217ab8ce70494ff8d427362186f52ecb63efa622baec3fa0661f6b444),(-0x58964c1ddc35547ae5c9c8a919d72bd5d13a27617862237536cef7ce3c050184),(-0x63fc940fe0ae7fc1258de55c3e70a7339a2cf6df112aa473ec6b99678e6b7844)),None);
  ((0x74e337a01c13b537323663602811d1d532d8747e81489415271411b172d04f27,0x8648f02b3a4daf96ecffabdbaf3599fb2ee85dae253b2c21ce66796114e25f1,(-0x35568e7285ec23cf8948465e13c4c1810ed24dd5641a22843f5a61ffebab4d6e),(-0x15ebf930bb2d3c621974c772b08a0762b1edf36d8dad6dd613173f8364be9189),(-0x5793716d4e8c3eeec235c4b349158233c14a8b9d803205e5b23a0e3b210eecdc)),None);
  ((0x6a6fbd51efa6a855e82cb0142325ba473fd7554aba208a400737475464f29434,0x16f5f8529f55fc2b7cf811161d7870ade1d1617e52c3c4f579ea06b27616d671,(-0x6a3087492c7e5859abce900417aeeaf016c6c90aa36911eaaefb2c568f037605),0x171450c6bff0c6266a596a2e97624bc6f94e1d246171b63e13728e1d0efebf5e,(-0x73935b58c80ebee856bd09e1f7ef6bec3bd78574d7c334498cfb09256a05d795)),None);
  ((0x243eb188de73a5549b32c39d2ef1b29623709a9ead4c0e240314e0c5f69a9634,0x3779298951f452d801eb7a0b7eb224cca2dbef041081cfa582afb25b1f4ce2f6,(-0x54630d14423bf56b0f298565910d36b9c494564848575b42c24a93535fa4525c),(-0x147e4e1d1e87415e367a8f72f4416742d8ef224a4be7066da6a3910a2317d814),(-0x77b3cdab4ec0645aba4d77ea500cb18a1260898ef469453c281b7852bdb728cf)),None);
  ((0x6b349eebfed4dad4a805b63a6ed2231a565cda752d9477ff427dd9a8c9ab5ed,0x7a09289ff3e1f9aab68aa374c48df65f550c2323607b97744dee990608b64f8,0xdc72fd0a791ce569bbcfab784f9a52919c72177ed1f0a1ce9be2d676fe1581d,(-0x1b970dd5bab1f4bf9e113a4d8a204f2fb8e8d0e5357164e908c38dc24ca9bfb5),(-0x26a8e34a538b85d47c66bb05047bb7138c4e6becbf680182f9b107028bab0f5c)),None);
  ((0x482a4cdf57d9eadaab1c92b8edd4d15f66a39c16b2ebaaf9ec314ac0199c4f7d,0x7391de4381c2f7a80b3c5fc6145192983f115fa525e4fd6abd513b116e4eb04b,0x1a8f66c4392e94fcf741bcc868f0cf1e05ea0b750df481e8cc9edebe5c9f15,0x2799b600040a80de412d8a232c1ab4496d3be9c8d78e7c40da5ccf68e2d9bc56,(-0x4180a83a1f3e30eae671881a6fb5c4670c209547edbbbfa71d644b280c899d29)),None);
  ((0x3bad86defe0d244dcc4b246c137dcc68bf6b733d1fff688f33431f2a339f8f3c,0x2de3cdf2fa86ba8c2b899f9fc04b8d5384145c3f68ea9b6ee05373dc01815179,0x3fa91d267c7d1332752224bdac40cc96c589d21493fdd160d9ccd97fb4802758,(-0x6e13ce8770f4ae9ce847e8fa97ce78368777eeb89a8a604c0d32f719d91353d6),(-0xa098222ba81712f38734a7cbd90f0f3549f7c652890b6925d333e70822a75ee8)),None);
  ((0x45afc85dc571ed1bd5e8115a9622d44627cf19fc4a8626e7b754b005cb75be54,0x6c0c8abfa60bfc771e39a18f57b8142f7adbcf220b81ee2339809e4957777b40,(-0xb5f215815c1d8a7975e175f1af9c725275d711ae701cf54a5716b9b9072b895),0xdadb77589dcac095e894d2a9b5b8007600efd12c8ef5e9b25ae8cad976411f0,(-0x83d4df173ec03b4a9e25e2457330524e10460deafa721f508d5742a96caf7825)),None);
  ((0xaf367956af630266b1cc760154256ed79da960dddca9d72a1e8cf27d8d43a77,0x21108d900134d3b3708dd28ace96b0b23dda9100e4b6a62a8131bd2f2ba408c5,0x3544b5f1cf9db4681b149aa1c044f615c14626b5c3c62ea8087789b1f9d0c55f,(-0x72c5327ef50ad8ea6053bda1e9b226619bc5861cdf52e51c19b758361bb6a0d9),(-0x89d7314d223c79a5c3b0844d13141a8ea7444b691c6854c48bc5d9862cccc833)),None);
  ((0x2b760154fc5ceb5a64141345f55b1b57e5b0b1d6c5a07dea8ddf074fbae70d33,0x7dc81af96fed42e0373411203fa2ced7629fb2eb6a2054e24afe3696afc20c02,0x79ab4174953b23425891d559aaafd5072ba5cb233cf2c4edd73c8139d4e0177,0x5d45b3d296db07da21180264056824fb7a5059a6ed29427435822b3764c0405,(-0x2ab922870bc13f2ba8f4cac390cad249ea2c4a64a81a7540688fce4702c727a0)),None);
  ((0x67dbc33418bbcd3878489398639484b6d6fa42f875b8c5af23bc92c69c5bdb6b,0x38436fdf8589a33059fc92e7ca7aa2250cc9ea48391b1e517c6fb056093af396,0x6cd857d3f18521cbdb8a3e60f65b0638485c232e8d0ef92c4d2aa66ab1f8fd57,(-0x337b7e16433159c01b8cca82686d0022485b645caed80a65ce30e3161a36424c),(-0x9cbdb7dff7633f8fe29416dd83721e2d4f587d7662c4770a4fdeb0f7fba8ff45)),None);
  ((0x29ea44a50a4b47b8b3dffa01dc5f2271d5439ba8a82a6ec0c454e9bd19448479,0x6c775ac8ab2eda8cbbdb4bd1196ab24630ac6c1f97389de19e9d5f63af509005,(-0x3b8a020be32444a9be2e6a206c49c424d648324cec285ee94988bd4aa5f54f5a),(-0x55f414d64695c728c32e9552e219e0e0b52c8a2555bc476195608d801533b0ab),(-0x7ad89df14d75581196264e435ffc9618b43a021b0d4f80c446b4305c45e9a994)),None);
  ((0x1e45a60140a3b2dee9b8dc6ff307154a1b410bcd38e0e38fb10b2f6da1afbe2b,0xe730da473dffd60d2f3241a85e68acb47d26e5043ad047d893f072c8dda0a76,0x4e3017c0d38aba507fb53ee3c40c46c39b46383fe2f550eaa5f4740ce349c4ec,(-0x2dfae41a8f714de4ed14d9d072e9d3754a9855f57c64f2ceaa018ef822c0ca2e),(-0x759969063df7323862c3a3eeabe9e3bed82579763fbaf75754662792651d55fe)),None);
  ((0x61708161cb4660ff22c3c1eaafb1414244579864b07e73fb9bcd90aabec9935d,0x38d6936d12e8157c0621bd2d8fdf95a1f84987ee724e0c98f5c4cd21feb9820d,(-0x587394fe8a43b45c290ed8d4b5adc378d330cba16d0ee395caa10b492c362c2),0x41ec5f2cd2f436772c3bd89130308369a65807f1f4108716b245be7cccda2501,(-0x333b4334f2c669c44a811c80fcf16d314ebfb38207a9975c10dd1d82339f6514)),None);
  ((0x48f451397792915909604c632c838021641749a67fb8e91301427defd951f791,0x315385d3bd5a22b69068de89e52a3126525be7da886d693e99ff2f088322d560,(-0x30efbe4616f29f6a00b1c918ce3c4086b54e8ab1a8961ae506221f77c36ad69f),(-0x420c12c0a1843dd7c1c81ace422a77cb6507cfc607bb6d1e8de76594e2022b8b),(-0x7144604be0ae277d18d5c765981196a554a402aefea99854e1eec43b1b4100da)),None);
  ((0x7956a04df862178ee4c705ffbd30f9dcbccdfc7abe362f2c1da24b3cf9dcced8,0x5eeac17f2e772f551e761978b395b6ddea37a16aa33cff34a30a8453baf6e782,(-0x169284c04da9a03543738ff6991f16148bd4dd0d55fb459ca965f0556eea669c),(-0x13a33059509211f65e2a9e26e5b7774dedbc05d5670c1e03779d547703bf2458),(-0x59363cf3654ef95e6d07f348584cfbdec1dec50e06647f8875becfc68952e09f)),None);
  ((0x4d1e116d136158c5ddabd4276832800f2c081c1072de6f2d931797a46abc0cbb,0x6d415be49d4e35b65cc51354b5008f8c43e84b7b5e8a4b84f44e1efb10c9b91a,(-0x2ca386f4315f5d05ff60221feb879aae52449b1da06bdf19f2d5f118663a3d92),(-0x74c8d947ba3032c893a308671084669ce98aa9fe254a0d12b757c7af33e2e3de),(-0x112e7399fd2e99f7c5d4816974c6995581e31f58dcf9f3c904480d38ddd5503ac)),None);
  ((0x4b5bae5a77a867ddbee3944524f8e2ec8c2a6172c14bd432cd42148248127d15,0x739476e0b38471219875a4580e6742ecb6aecba57b8c0fa0d923b8de209a77cb,0x2ecb3dd98940145cf3c4fa25f42301d06fde160f5788fd6b7b8f1f3950cf1b7f,(-0x701829d5eb64ce28bb001b4cedc2d721d119e1b7402ce793decb5317a2496634),(-0xa9b541a188aac07130b68b7b25936d79b9d4debe080ee40db264259e6ce51a2b)),None);
  ((0x33bfa90cc1b9df13e106ffcf6ca898d06b22d51df337243bf85b3f232869fcdf,0x53b120db6327cae59fa5fff109017d2df4acef01d2f10981439d824fb2da81d9,0x3bffbfd23e3f40915d7bc4a429dfe8145bd64661418501514064061f1ca17a3f,(-0x6699ad526298961518d512f380d7a349785f2cf3fbc2008a4096e0a81a16d9e7),(-0xcae57716dd34479ac5524044de9353d5e154ecbd0e58aa101ef353ddc1b9ead9)),None);
  ((0x444929347c2ded029bc19558b0f69a4492017a9c35b370711e08222bc0b9efc6,0x77785ec5cbbdabd645a3251e7da57c8ffc39158c0d7b25a4211c2aff2e1d6245,0x21ccd207e00f097a8cc279821f866710b7059088ef1b8d19803157b32a405f9c,(-0x12f710119059a011b8395c7500ca9893170b22822663ddbed55c4f77b66e228e),(-0xa0db501b2a0faf30a33c98ecbb4c41fb51abb277c8094259ac3f49fef177926c)),None);
  ((0x2b6b892ae94b454b2c2d92bb947fc4d506d173d281779c2c153c001ded42d3d0,0x7f1cf64e0e180fc4d6e12c1b5c5285f376e979616a52c94a0dea4d48c5880cd2,0x4b145bd0eecc3ec1b1aba5c7b33717a46c0d842002effe21ca0191b4311ba2c4,(-0x6d827d7e25638d47ba052eb331c650f3f8ad959ebd23ec0d9e614c1145d8631c),(-0xc884d1546147bcaeb8e2acc04e9642230447c604eb9ae356f1e196587719a337)),None);
  ((0x1b9175b7fc19a618d5848c5761c2b760529e3eaaac087b51112b1fcb422e04b4,0x1730a59fff4717e258cc853dece7c5f70ecb52cc35320a53cc3838c844ca68e8,0x6f80e4cfc4979968edb6dca30a115f0d3bd0f4563f53eadef2aea1749ff7f64b,(-0x4ba548743d9cca81f1723283960a33d3a2b8e266fb1939d5c0965a6b0f1445ec),(-0x95df327e9f5bee7812b9647fa62526ed0be86e1278354cab6d71eab9501136ec)),None);
  ((0x1371cf67fe47f8ef91246ae0485874d601e31984d854224569ac29e56a6ee87,0x71cad7d8350661ce798e332a98ee5b62f8431fd9ac5a4a48856ce9c4c5b64c73,(-0x1bc74f431691579badc9cd0bc2c768e84ebba524e067df7209fa22616666a39),(-0x927756533301ddf06694284666e7a6bf2567d1f6f46e5fec36bdc8b32be8621),(-0x5853d78d03211f4910890a012bf06f7ce9ab885a990cfc42667a317a1b95f03d)),None);
  ((0x63bd671eca1e6accd0f980845b163ca4e927d2a74d198e78cccd8fcaa6aed372,0x460cc32f5d27a15f4294faa20a99112392cdbdc8515e9caa1ff4887d22a6e7b,0x6526725da79d3325d5bd8951a58905262cae1eb71f050a3148b1ce21f0732527,0x3e7bfaa6d11b359ab62e2ba0c9a9cd81e24ab8ec0d2ee00cb55b1f2d4c1b77a0,(-0x6802c8e2cc534d06a678ae68ebf97b7339dc8088c17d29300de80328f8234c7f)),None);
  ((0xf6c3a96e0032a9394337a02ffb2c83ba70efb8f566feab530fc90fa3b4710e5,0x3d4e97e286378675038a4b58e84224ee515e1d6697ac79389f78479be167635a,(-0x4d91bdcfb9171c87df87886ef9a552633a5236323aa6e86bbcfcb03edcaa8602),(-0x338f5ee08ac4d46a3d9f08b453ec538385d6850674fef681cd0f14fd06a9b65),(-0x5c2e60fe36d15bf26e35c669e42cee1185d67a737238fc2f78afc2d35db0a78b)),None);
  ((0x3b13c71c2a90bd24c51df6bd138c5d16208a9ceaaa8eb34a69469fade6abb440,0x14890a7ab24817b2bba826792e8fd342a6f705af800252616435be180d16dc54,0x1b815fc7624e55350a3496c54911407f0cccc602f6e519ad8fd1a62aa0546c7b,0x24152c2832feed2f9b7cbea05427ef115ee3ae4fa23cfaf10fc38c1dfdbf446c,(-0x30e655151553a2a52f9e3f54179e97ba420bbce6e5522f429f9299b4d4e273b9)),None);
  ((0x184b48cb455000542259174da9a6eb83a928b2835182278abb6ec091e388a820,0x3ee0e07a03dc33a9dd60c2682380ef736679a5e383faf453fe324dba26e77c33,(-0x17f8d89d821be0b01b8ad4a1c229fba4ca41a0040d74e710cd1a830820b7bb6d),(-0x4dbf1f88a7daa033ba783d893f112e6fe40d64e3aa309123ebb26e0cc9fc260),(-0x430bd8332856ec484246bae66016c6f516a803b7c2f9a67ac0e7138a2d2bc7b9)),None);
  ((0x5a04ae1195edf508262196e9d23c259c937f81769b2258542b78e3c0fb135c34,0x676667092118acccece87e75f0a6825c5952f92dd499943efe831f9712c5e8b9,0x1a46fcf5b6dd2beb828d91dae1421ca9e9b6e1dc0cbcde8ea0b652b8f869ec45,0x3925c427ef86d972c74608e925e57529ff9ac4d686f048ac8c36633ba82c1960,(-0x808efc2f478460e9eb34fb0aec767efb34ba188c7007d238539c01dd2ed848db)),None);
  ((0x52ee53b981dfbc41ddaa5ddc2754c4175f4811aa45f8e2b19a425657c238a83e,0x7eb0a1be3400dec87b388cad51613957643cdf0595b891cc6f925fb36da7f1c3,0x14388acab21955db5ede01045645bba99bd947957815fa157c738f98d42ef0d1,(-0x48ecbf797184cef328ae08e41e9d560095b347be5a2e08bacca1a34e017abf30),(-0x1019b4cc7abdd1c82bfaf0a2dd95a18ec4bdb32c20c546a02cc2ec3a318d8cf63)),None);
  ((0x501fe138924e05cc1a05129d241e6b5e9d46cd8b0bed38eb42ee20678a1d2425,0x2f8022ecede0189c215882ca856dae0f7b4daf6675181a558ebd11e6911cee4e,0x47a99b26cecd0bf37275ec6ff2065d8bc4ab3d8c8398866d4cace55c3ff9c6f9,(-0x89bdf30757d8712073380606bf54766030aab9e633e3f177dac79c1d17c3cdc4),(-0xc2c9cb683cbe906c76b5372d739a19338d6006f555d74e9d2cb60cab810f1895)),None);
  ((0x2d8294fd94996032b73b4f09a0ff645ce8db39db5463f0fc57156a1d390a3b68,0x3a8a6faa67c6dd905a4fdeb95ac127c9fde3ac017c847ceadb2c55f1445af624,(-0x2087478b787d79331504f69619f1b39d5480d4dfb90ee2cbc8283eadbe124264),(-0x234930f06beafdcb65b4018fdfbbb3b44dc6201434776714750952752792d744),(-0x62e3a87f142de1135862b2c54f3f77ac116e2499dc500792a773940414495955)),None);
  ((0x56857d02674276af0099d63b04a39544a23b841cb2ef18688ba9500361e4da1d,0xb543a6720e318d2647915bcd619efcdedcf7fed0657be45d27db284290e72ce,0xa97b4f1f9e85f419c9e692f9490374af31505e282a3007faa6a88ed9d8a34c4,(-0x20b1f78ceaf47a0243d7bcdcc9919cb2e4020c74a006bb2884077907966a6a4),(-0x30234493dae3b25c9d8bbb9eb997ce7acee11aca8d6f94d4076efa05640ae92c)),None);
  ((0x52a837bc7a7bc9459bcc2ecf80f74d9ed99def0342e18cfbe8e799fbc504fd52,0x50d6460185d8924e5485f23f36a98c86053514d163547adab6fe91478a411196,(-0x397b39bb022e9c19a7d42815c7167a3021deb6614c59de25d60d348ee08f5c01),0x3644e635a3702fcd1116d62c6005b6c2c5d45f99efe8e81a9151016bc08280b4,(-0x7f8a114ab07eaa3f85549afbfdbd91b7efb108b932d58885f518f66259d279f5)),None);
  ((0x3f30ee695b236bc74620afb10469324b45c8201a45cbd6954239e64086f3cd53,0x414231531dd52e5555640faeae608c4a0c205a04f56d187ba80855dbc0478370,(-0x2532647c145402785328ede8b367e32b0c42a1c41288eb0f10c6bb214c7bcd3),(-0x55aa1a4ad58ffb76cb7ac1ec80f03a1480bc6121382298043b70a23edc4c0baf),(-0x7bc77bc230daae72f5e7362fe6f74274aedb18b6c246ef6e3b58ece080bb62b8)),None);
  ((0xebc38c54fd6aa12dcc60ca5c72ed865b7c35a6bfcf98778c235307d306de6e4,0x4b3a1d9f2ef40fdb3e31ddd56a08526dbda15a4f58d78162c7bf23886763ce2,0x2131eef1a39c569e3540af89af47615f52be3592686fe9cd8ddde8431fecfe5,(-0x3e2c965234904c51becf601a51b371d33e91f67833bb5baea1d7dbc7b15fa628),(-0x41302cfc0e3120ef0c22f737c77d811f582214710a71314a8b45d33bbee709b5)),None);
  ((0x3b75696730dc8d8cfb7ddb23241cc7ce78a13e6a377db5da527a1058e60e49db,0x34d031744cd2d9cfef9f9ea654000016fb3e8b4a8c44198760f46016166deaa9,(-0x1860afcecd52e547e79eaf05a8387168a8cf9b959af7d1bbd2a854ee463ade4),0x129c8a4f21ea28c48ff10e4d7ef39befdf4719e88ca999e378e1a2b2512f3be8,(-0x135ca5efac7956f5aa5010eb44df9632c8dfc3db67cf10dc01e025c8186221f2)),None);
  ((0x6b2bd5d00fab38ceca21a27d6aaec82626b14b555d859527718f8ca404eba4,0x727340c27a15f6ab3d80547f0827c56ab1ba33bc30d1ef3909ea9a3af10c67e5,(-0x5d42e0edcfbd25199e397cad04eeaaca3b35e0e3a2b85bd249f06622d3a1f96),(-0x30bee133de03a0b6d74e9ae833cd02febef8c62603da5cd9a6641d7aa5a6a586),(-0x88e9c78856562f0223cbe45e1be5522a5a37fbb86e249dda3603495a4a9ba246)),None);
  ((0x1f4e8938dcf3a6d5907d88572bfb36a8191aa9d05bae8f68d3f120ea165b2bd8,0x5a8b0c6f649f8e191aeeca653774a6ddfc8cf8ae3d4d232e2148433b9bda19cc,0x665559658f3339442e9343542baa7f2b4719fafd674f5a0451a9060000b9e781,0x17862ca5aefb03a2f71bd008bc45b20a1ef7dcbf7224bad55f5962e23e541818,(-0xac8938b10483c454142f0e9e6a2c07db45067e7ef57051ced75df9314c7c7e05)),None);
  ((0x8fe8df51b345989553484e20f600c2e46f4ed256f3c8dcc1615b872f0c2b925,0x2738e06810f4cec5d894c91432edeab5ba632e54d06f494b751bba44bc93abf8,0x3863e5e24d350e2b80e020424ddd98a94277b5b342a0046e469b3ed64fa5f750,(-0x2590a4f6233c021d2b2a9727b5a666ac0c5a7c6bb3ce36ab071c97aa96910c00),(-0x6508c530588194b4f86e09dca9456cf3d386818a791687c8cf6bec744c700e60)),None);
  ((0x1a2403cc5ef2ad62b4f09afac79a48a5ba8ef74f3321b65a716164d49b141c74,0x7779fbcd8be50c9b021180ac97a544ad0c21cd1f3bd263ce5903b9afe4fd76f5,0xb62f60aa9363bebddb9767b95a7382eaaf4f06dbb9cb780335d78a293741a71,0xb54db23be1a7aa81041b46ddea115c39a4472164c4a892e5b506432268e9438,(-0x59a27d71bb3e82f9d4fcb1f80a631b309d0ac1a7be373748a859d02512a1fb65)),None);
  ((0x71dd75fe35761c01a48597ec730bc33237902fd4ad8612cbed1031eebdf40de4,0x39674a4532078e34378667beae5cb55f814ead9bbaf7e01b3b69533e9f88a411,0x6a2e98c5066ef1811fcac60ca326de44992528d68a420f96e4a256f89401b138,(-0x205aa459f40ebfc7b3f82bd4f6ebd639542f9e4333a0ba64513f981c0b7468f4),(-0x7d266ca03b5169e044ba2f968174254923ac3309ed4301e6b606b1ecd65bf428)),None);
  ((0x300d6b0bd6734e6170b814d2f28c82de4a2debb1c5589bc8b2671e0320587090,0x40ca073d0343190c7f042b83c7bcabd3fa997de98f4bf0e2bdc4a7bf5c55fc81,(-0x4b8c31ff61f671d3acd1b84542d967f0af326badd20db6debb37b0054104f300),(-0x56362ac27f8ca1f852311ad764c74368903dda7a0dbf5db1c995c814b034e298),(-0x947ef254391a2993756adc4690b66dcfaabfb4ad69e116b797db7417a8170fc0)),None);
  ((0x42545a6a59885c28266ae07652d24503c2fb5830c85817f6963981168cbec8f9,0x706406cdbd1ce0bdbd9ea269bab2e060b129d6da0f1e6983fb9b15672c2eb507,0xec1346ae37a586df6c04aa90d230398bbfa1fb6cbc56c06745175874f8ba5e6,(-0x8f39ff8c2543260aa736d7ddaf2bae825ade91c01adbe800aae0883d681c299),(-0x7617436f9ab43d0921baa24dbf9ce605c175c21b151fa56d701d74e54727d658)),None);
  ((0x6c1262e3f8a43b517673a0ce209f76cb22d7cd7e54fce6ac235711e441703a02,0x193841cf1e0f528b9a8d508a276202a84f1fb096c5ed013a7f486f0d269c007f,0x4050253e14fe92901ae4ee22c263c79d9f9b5ae3e75b43db0fefe3b150a2426f,(-0x25874436d77eb356abc58d20074e7713331975753be528b167940381e9a99934),(-0x977b419b550b3e3611456965e1e6c7281b3dd2998153fab7946e34dce499c763)),None);
  ((0x57426aefc21be9ccf162e23d25ac3002ba8534351e65613f870f690f2fd46cf5,0x6b45b002fb4e8a6f59a6ffb006ed71f75434217333b266325204c7d1ac2e1f34,(-0x5646f716314bc9b9d82666a33315ac0bc0ce202c70c49dd741d631872f2b0762),0x21dbbd4d26f08885ac4551e17c35d9d9ddcb9882a7e09bacba366332fe2298e3,(-0xbe315915eedff5a2e0af4e647aa7553447c4ea37958aaa6130d2454b6e37c6cd)),None);
  ((0x205aa3463e7e41af60f5cff4853fbd6f748aa1b132fe5308807d22c5030b48f5,0x320b08e8ec6153e2be9955058bd26993bf50353e040c556ef8976663448735aa,0x1e6a3c6124f17a17392c1738d74b2b8e48c5f37098e2b3e5d8773a068701fc2b,(-0x74f73887ef64ab37616174982cfb513db50594366cdcd163448a5762a1ce4420),(-0xc2b1c786567caf8df9bddb05528c96b0fb6ba195c080a38a58ea43e4e25572f9)),None);
  ((0x592c8b8843ca1f7d9ee692d5e29bc1612b0a98bea402c5c2e1e8253b65feea37,0x42a352d8dc52fef9017cbe617cdbee3aaefed1935aa62f8679af6f2a1d00b5e0,0xb630e17f7075f9038b3994c5c39afa77fdc04a5d27b2e858124f415f88945ba,0x13fa3f0b4a9068d82e142075076e26f3e5b4b2b3bcfd3c9be90f88215de685e7,(-0x3d93a60e0ed912755ac079e7a6c037e81c033bed032891d1ef7c448c86c1dad1)),None);
  ((0x41c030fbca90151ce0d0064a815e03825ed77a4ac634604ac7137bd3713af22,0x72467625ee43fb7ac67dc71c655e5c16e4e97c2a3d4445e7e9b33fcf0780f989,(-0x1b6ec3b52ae82f05ef62f848df9a1903b8361f9b3261d37f63acaf63d2d86d54),(-0x592b191685074a673a563a4a611ad15d88c13e7bd644be036edec4ef4b345da2),(-0xc72fbf8022883bf030ef8ef307097ed258020730390bad696bab35c78ff475b2)),None);
  ((0x6222bd88bf2df9d5d44b60cfb4a08a960078db7ed51a35eb3e0b6b8ff4eda202,0x325bb42ea4ed025dd6bdaed261b7c4f5410b608ba902b068f1efa5782e45313,0x65e3e2eae433d40ba7ed6ae9a1486cd9f6009d07d9e324e19bcb913ce786ef57,0x19b67d666f69c6ab68e0b96aa8a558dca1eabaec4a75fc06b8386c2afb18eea0,(-0x6736cadb30e54a7b9f150655c34f314647dc1a0b5471c7d1eb1cd5309d0ba049)),None);
  ((0x23bc7abc84cb4c4ae5fa62b25a0a8114e8406d9bb93f2091142aa2d8bdba597,0x4d2b97a739eceb14c95020371d7206e904f94b8f2c620dceed8511df0f29c9ee,(-0x4b296bc0b6698ebb991323865091210940f0ac94e4ab4ebd013d3ad2ee9b1139),(-0x3a09595461a223da42427622a9f45da38734f4bbce4cf90f53dbe9689c9aade),(-0x74bcc6c09637b70055f82c390e999ee6f240b2782ca94b0f77bffbac67a7ad71)),None);
  ((0x6d5066cf7137b4a5980aa453b672c84797fc6856f0ef5cf0c4be33fbbd39d169,0x54bb8cd82a0a87c883abe35abeb81857f95200b4222ea95b5cb347115219a417,0x2e7c872521a147717c02a9c13a44f1cd6ce6d3f98338cc9fc7fda56fc86169fa,0x438868ee8350a19ff9b641a700b21382e2c92a7fbd5637a271a19214bbdc1f59,(-0x64ffa827017f0b5552a458baa97ecba1281692ee3d2393395cce96b6666054b6)),None);
  ((0x6b66159ac8702d4e34073b76629deab2d3aa50942db5b00e4a73e8be859362a9,0x19dd4bef38efd504e49b3a5d584432b9ce630883226031e75fee1a22c8ca96c5,(-0x2543e5f048f15fec4d16aee626b0360454b39dbf6df839c8fd4710e67d8d11ef),(-0x5075ea600d7f14a84a0ca234d14ec8e0ced9bce33d4025b4df0980c87e2256cf),(-0xa4ec6d19a83b20f1f3c715426a6b683abce210b842ab9b673c0f286b0d0078e3)),None);
  ((0x71ac99647b61b9eca6f0c23432a518f738aee708d5932d4ef0f172240250a226,0x3a96c2c028ebe5f48913be30147e41bc5e1cab9595d5404138a9aa1b5574cf25,(-0x54e30d47641622460581bf53383f590750994a2f0cb1f1189ffcad057c862f85),(-0x2104f61be87a3e93e99017cdabdf8486ec02d8eb8c682b614f4d6704c1f32594),(-0x64b10833bad262c8f6bfc4ccbcf4adf3156e1ea2e088f9b3ac75669254122261)),None);
  ((0x221b138a1bbb6548d2ef719bbaee436114e7cb6b3225dfb94c327667ec45772b,0x7951b295fab7fbffa46c08f6979bb32060974fb037bf5998d0ba5a38180cad84,(-0x4a2255829ff15af1efacb080f00a1dc944bc28da848141b17d0b6fb87565d7ee),(-0x51a56f757a3e5109affb87f98c45125332eeb858a42ce1493c617b130775d14f),(-0xcf82906a82727a926dcb10c28b819d0f26705e3c98eda7daf4f4789618d64b05)),None);
  ((0x1c1b0d95db6a057eb34f28beeda9f6bbb5315285de2804d15c3b186bdb3f5c28,0x57bd5de4e0056cbb4d98abef9d1e0ed6cab1628ac08e36073e31d00a9ac3c5d5,0x69e641aced042438b7c76cde5f98a158766f5979adaa37df2f4ea91af6e63aae,(-0x2c6f9286303ba17946a01b0cdb18fd31ed30344a1f86ea5b6eb1802f404adaf0),(-0xbb2ec359b6c5912ed4b60ced59b9d9b703edb786e63f3deef0fdae0bd0c22284)),None);
  ((0x4f846fad2eefb8c948a8bd3a87d8b4dfa0a0ab643e724ebb1c91437c567c9f47,0xa2640ccde505da1aa9227bacaca13d49a67a199f0e16aa9f86c2a7e1bf02d2d,0x35f8a82160a50b75a00d442944c29b36ca6ac424035968bd085d1ca408a46ac2,(-0x1bf251d8af0ee20e44bf7c6a73a9d924fc9386fecc65feb3be0d1116e4674433),(-0x43aa38fe5f36caed6374fdffd7d2bfdc40f39506a6c6177f8631bc4c5b2458da)),None);
  ((0x1f6a1fd8cc0e05b2742ba0fc0369b5247670543637dd033e64dbce90b2f23e9f,0x779964401ee869a9b31c0ef874a86440ba85d25c2ce932bd31a0865869605e19,(-0x3097fd51df6149aeeff99b60a8f1edc8ee8059c2ec31d69f118752b480f89813),(-0x41426c7468abe84412c6823c1c3b17ea7b306c3e861ecffb4cd8de61c2f8f59),(-0x52af106218d2971000034f4e58d0623823ca6917a334d49c011f62538728983b)),None);
  ((0x6f0a87af6e0f4a05fa7067cfecd4f98dada3791f714a66648dbb5cbbfd4f326c,0x6b6013813505927dcbcb6a42e887cc1d5fca175e4cd226be6009248c6c6e36c6,0x680a2ecf677124799879db83a6cf3fb2ab95c08439ecdf4c4c8e2f4f4054306a,0x147355360f0cc93b2ba9e4ddaf57ec0f788efc068a3371fafacd1f5499ece102,(-0xc400a613cd6508155861c4afcf2f905035a3eec017491cf75ab3af628834ee22)),None);
  ((0x1f90c7ef4610dd083b3d64bac47574d9da326b536b9a6eb0f6c3134a847a0564,0x63344ccbe4169ab97a13c3ccb097c0f4fdffbcf6284412303c79a1c8ce3a2f7b,(-0x6415b78bcb2fbecd5c660e3d74def8f5a28777c6b4424c020fc335a6e5f7eeb),(-0x9e48435b7731b58e7778464d92b65dfc25bc88f3f4d468e56d87093e2d4f0774),(-0x1127377dabf488dc3bfd456d2fa9290bf46d4a933aa59128fd74ff9daf1ccf3eb)),None);
  ((0x47ac42e7c59481a928348d7aaaade88b00b7aae4e73ebe0dd20e33092dd34e07,0x28a6c1d1356c10ebea15cbfd161ae974f3b2a4f51ed06403c2f09bb58f7a8924,0x451a378efff61f30f998d59219f9dfc3384f88a03f4de9b7d42067440eb7a777,0x2fc6750578b3ca96960e145fc69855c69853d377e554ee76bf3d032b70919a2,(-0x721da82f085541abc092257f795e4d15df6fdf5385ec732a6a4fe50d86b68a5d)),None);
  ((0x22e2c039067920c42980dcb3a905fc91601c2b34e819ce1532ada4a5fc39d5cc,0x631cf9945a09bf26d7e595b3f8e3390696870512820df63c5418577089e1a8bb,(-0x1b38efaa738c1077d57d44034a1615d30369bf26700339d7e9db0bc2f676816c),(-0x2b37f70927b651425ff4bc8ec53a872b6b974b392ae589f9de18890e6b3611c4),(-0x3b9896ce0a12d4ad06bb9dcca8fcda65d34d04245b95c956137f222547be9154)),None);
  ((0x1a62e85ba4a14a3f24f9dca8529ca842f5c7f18a3f429886d6b13673649ad53d,0x1f6d17d9a1e5c5d8cbb98100757e5183551d00091183e6a5e1eb0dd514c8bdc5,0x433cd0d25d57f03b0747fa2847608ef4582d4735d4a52a95b7eb475cf09608b3,(-0x224de79894b35277ab65eb6d77ea3aa38b12c56e065641016d97823db4b305b6),(-0x6dbdcf98e1a6db30fb4895d08cf203fe8ab7ea327f7f9b6936f7a1b46568fd7d)),None);
  ((0x36b566a2c0f8e36e760992eb83d509238731939dd9dd0d19513f52e1e9e4f9ea,0x1bde4ad0433ee4e19e734c558978dd945ed244e38414387a43e70232ed39bb3a,0x246b9b560829bd758ec7f527fecbe04d521e6c57585f7b0115317bbd9bc7d96,0x1efa0cff0fa2677c29fc871f55b8393b8525eea1ed657f7b9756b8f5b9b43cda,(-0x2388d3c574bb66060e4e41eadc3751273ea6451a3958affe531b70b873229aca)),None);
  ((0xfc8f365bb4b04e275d358bd3c277745c565eedff84179ee72cbc5a3e38fe7b2,0x16f91c8191db1e7817455b6a395de2b0f4396697920ba0cd4874e2b534937b24,(-0x1150c6125ee606f2258b39e1da89c0da5f0040f905cc1d76b8a9448f9a9997dd),(-0xae84fd46e901ad79a72033ad55190da90af9bf4d6244af33b67e02f4f4299fe),(-0x303f2c76f7882c0ff166ccd9e653487f4b9fa46acacc4d303d4e1c68e8925ad4)),None);
  ((0x608de273a9f6a534219d7aaede3cf65a81e4dc03d7a2765eced1d2b7be4610f4,0x3b31d0113f98d81ab1312fb2837aa9c8dcc7960f84eb371358c6d841f67144fa,0x22d321733f48a648221956451f09920aa1ee96703630d71a7efffe20b032ae3,(-0x515140509dddc33429d9f79fbe00aa1f5d9f3779cc4bceed488c7edc3fe2c7c),(-0x66d79156f46401ef4c18ab50e448ab6e89a4bfbfbbbed79cf35d75c4ede82ca)),None);
  ((0x8d1e75a33bf363f2ef64faa0ab5f9582d1181b793ec9452ea93a3011634d581,0x47dd939350f06a41ea9c3d889d127155d0275926d05b5bc43977b5ccae42cf1a,(-0x2d7571c170579aa397340b05a08a9b7b187180e02259179bf9f34c89adf02cc5),(-0x52e2e1d1dabeb7a06a178f23bdadd78af8dc4271fc97b83dd526093a99128f27),(-0x98814979db29544c64572e9daf58e1484e8a72628a22446707347dd810333baa)),None);
  ((0xb2fcb60a19e6a0a29bcc1e5224ee0acfd648e6ee2143f90a5f5aa1c6d51c96f,0x6301b568e9c613866d76b4c693de25e83435344795fb78c3c5e944a1f33239dc,0x27bdba25457285f84d853ce42b5500b968cca9eb1b5e21546dd4df4c15ccd097,0x21befb83351ba20c9a4dd902adba4698da1973cbf7d7ae4795e501044d72c4,(-0x81c6d382db3a7a040428678de79620743e95008ee491b34eaf362df2c5c16a21)),None);
  ((0xb216ceec26c5cc827ebff75a3b41630d8925bcf8ae53c7dea348f4c0dd3ae27,0x563053b0dec5518f24c57a3f9138916ec287602e8a557819ad77aa2a5312bac3,0x4b9a5bd6e67a6448aacde4ba9f1f7d48ab4facef80e80a2e5341604809a60094,(-0x656caf9635c5c1b00f70c0179bb360052e89805a41791381f2c4d5b29f35287),(-0xa27a2027a74bff8dbfb354908e06a6ed8aa091685315db943968dea318d78adc)),None);
  ((0x3f748617ca63ab3e44c6e34f63e7328ea56a2a146da34368a57dca181254fe02,0xfed89e6420fc47b3938a2891ba9acee4cbb2899ee4e9ca15a13dc527dc1641e,0x39113b41157d099e47f3ba85e905fa255119a63e9cdbc2086fd310cfefef355b,0x2e6892fab92a53527b2295d16bfb4bdb32d0da51169e7beca1ccfd03b29fff68,(-0x4a6a239b769ffaaf9c99536988c594d671c2c36c9ea476c790a0e82ad6ca1ddc)),None);
  ((0x8f050e6e4bbb5e43b756c82a0ffd60723f78c3fdfb49c50378a1083808c3cf3,0x38900048f0768542b4b9354736b6880632a94601a17a15adf4f233924875ee62,(-0x1d79b8efce19ed5491dbeb0268f9ba1c882c67ab31607bb7cefefb35aa29451c),(-0xe309c4f9801e19d3bb07321beef1c46f8fbe62835a9ab39186147cdbd13bd44),(-0x2b9447149bd3178b7b0ccae2f9dd57844ec95a4ae12f0268d49d98f77f22490c)),None);
  ((0x2583374456f20c85e78e820263e1507524897a5232050bd0ebfc357d04b900bd,0x62d1c4fffd5ac72c7e7dd52c2bc9ea4077ebb7032a39291e0212da60cbcea18f,0x185ed4f404f173c59f4d1426a3212bd23eb0f5cc7044c6cd8eb4e9bf364dd5af,0xf83b89519a81dea1114c6fe07c4b0f3258277b1464c4fca6be7dd54ce364b9c,(-0x574cbb0320dac4a901d03a725907f6e47d8e08b2a4224e9faff71d9374bbd1b3)),None);
  ((0x5b4079d8c7a5a10bb68984233b2726bd95196ae2b50e6052441fc4e5b98881d,0x2329432253e9aa57901c1369e57e54e4a363d2cfe69069108c833fa8d79f612f,0x414c2af7c5198f66512cef13098ceb771982c2532c7cb0ffce50e1b596ddeeff,(-0x348ee5b1c393402679c50a4e387792e3814e0be07ac9ac209271ff4f8a652709),(-0x7859870cb9ade61ae875d6e3a5fcea2d98fcad9d2317cce316233232a88763b3)),None);
  ((0x69d98b5ecc35d56c97c0bf312955d199befe116b417d70f5f57e2dfd0af81ce5,0x3e26d487fbfe36ab44e0ca3b248fe94bce92a69b8154d50e2d5481f8259f4e8e,0x9679036308edf77368267dfc8417ce4126fd9850c0d28e99a753e06dea566c2,0x10304d9b614f70a81922696098caf649bc031c7e0badc396631a78da8372390,(-0xc58bebdb1d842f51a1a16cd2f4e479c3e657b7a0e22fef63040af190010caba)),None);
  ((0x62a8a839f45660759f741c7892703326e4ad11bd9e102c0770af6ad49dd4b6d9,0x3d45d6c61b8a03c29d11cb1e9660112995fd3bc8c1553ae897448b613555bf3b,(-0x395ab0b75e75fb4ffbb97d20aa8c613321f60a6bbe9f99e4d4f29d349500638e),(-0x3740c3ab42e209abeac50c07f8206689d0701ba71527bd58cb0a3ad97f73cabf),(-0x933c69bf48d612a349a8ca7ef55ce0c27a208d9cd9622d69420adf059189fa4a)),None);
  ((0x4e1c036204e123f311e8da4e3fa212fcf0acafbded425b71a66b0dccb2500e7e,0x6a5908d961f00a62a2ac904fd824f6932f0e735f257a7d0d273d61736f1bb1c8,(-0x2eb669036b2906fd3c771748b90107c7fc66773962c0c43d59cd79bd3a233424),(-0x20780535680f9a3b637e317056ca1c0b3235c7aa18e8a5bd66b99ead4a0af636),(-0xbdc50505324ba811320673ae9d689883883ca2c5743a7579be979e8a3c53dd02)),None);
  ((0x7fe8906b455e9f3a49464810d3e6b8e5fef5d17226ddea3b18f08e2ff8552d6f,0x1300ff9d28f135030203b137ea4a3ec18d5dd0dd6b29a6ee7040b97b336976d3,0x28b18a556832f6d42ded746dad1acc4bdd2dd59b0cc0d479349f8df471695532,(-0x2fade1a1d2a1213c12d4a0b61e863a0c4d800ccafaa3e681568c68463948cb7a),(-0x94391371e2dedc6b821d1328d60bddf4aa847d3c3266c965366e6cbbdc13b5e4)),None);
  ((0x1e34443347f9e627b3531157faab6eaca1bc3114df4a1423cc12bf8417b5d622,0x295955a5ed061eca7f87b9485666ba9489ec20a9c484224dc920350bb4a6fc79,(-0x7cfed93c5ed8651f721f1204e890adfdc12fb06ef8dd689d66dab4d63940fcb6),(-0x14875bb049cbfa04c20465ca2eaacd796bffa06f143ae3b9980863bc82e094a6),(-0x9a879d8c217f4d233834a95e86360236f0fa796150c8af7cca4e39410efed926)),None);
  ((0x4cab819c06b2f861b4be5b06a918bc314bf29f56cff389ae2ba8abd5f1f5e156,0x1f10fb18bd5ecfe633b53936f70ce8e58b6a864e679297770f2b38160176681f,0x63ae3e808268e2cd269ec303dbe8fd115c2846d302d5f0cc4f822acd3a7f9f4,0x158241c9b173e66467ea70e7a950ac25120b9f3c5b14eac7d541f16ffbaf1faa,(-0x251b61b07d5b38cba4072c201c16e5f905550ecc0705ddf88acd9c21e74a0a46)),None);
  ((0x7c686b90cf6ff6a3a59cc7d8a5e00a2c9b2204decf83f96bb56b53ef630df083,0xf1deab1d3a4a3d2528d9103d118fafda873ccf0a518c45821d51a7fd71533,(-0x266253d5699758f54f41565fae7f95a0a9b02b9183a3eeed37ebedea85d3def0),0x3bb0a64e90ce6974e1426705b99c898a1116ca0d4668af48cf7a46ff72c64bbf,(-0x35829207648778f369abbf2c4e32580a3f3abe963a886f409e76be0f839a676e)),None);
  ((0xaecf4e5a0c4c4da709921a44dca45965f89a3215bb5445cf72dddf4ade53a2c,0x19304020c00e6169712d6050734bf5c51bd0af80b5ba4a6a0ba008e965216807,(-0x78eaa3cead9f0def755fbfd1e5851b646e39d71b30851cebfc3cf6f8b93d6973),0x86df1f2c03622e3f941a5b2bac9078c9b0349dcf1fb5295c070fe0b2cebc48a,(-0x8c9d70a2c188a6022423eebb4f1fc3ea6ac204bd1ac0a1bf92491ab19bfd2cb9)),None);
  ((0x51f4ff8c599b1c96da82941520a9f5abf4a31eb8b84fc95056145ceb3b5775d0,0x35ac9588d46e41f3f6f99aee3852eeb4b12e807807d4bd1b7f8406b0d7863ac1,0x4062e503f49cc0d887a7ff8f9b075d9ea9b21891cac98d709d86e54f6a9bcb5,0x56d217497d9f43d4da1d31bcb976c1524d6f6052dd886caed8a05f7b1dc05f8,(-0xc425396d60275c1263991da73f3fd6589b26903667a182d2315dc3453cd19ab)),None);
  ((0x568de690133ca63f63c08161d852682fa5696c0ee66bf8f3ec729b6a71bf9741,0x4c48220992e8e64741dcdc433a0e65b43a5bae7f4d743e3d1bfdb123773039e8,(-0x1df813d6085866b16f0c2f9d67c672df3659194cf0186a1f275c244cd9572e99),(-0x3678751eb0f689e06ecee007b398747817cba41f0d9426b220b872767cb229a2),(-0x578dd023c98999add24283c73e32bac4d8a0fee602fb29132004290d08540985)),None);
  ((0x3342c4717d55221def46b89fdd237cf4e9528170f9b524bc6e730cc4663403da,0x50676cdf00c935368d54ccf1fa7dd2671cd7ea46686e61fca49dc6a85b6937c5,(-0xd117a0f7c4b5a15f86cdd0b25d557659b1f6f705e41e496ee449376f70b3526),(-0x59d38e6810c1c28d1917c2eb12c6f0c86d3cbd0855596945d0826260f8a77536),(-0x7ce8dad22a32ab7a1ca814bbb61c39b5df3fb0c61b163948cfb5a23e3d4e42f8)),None);
  ((0x3396978bfc50b33d58eb8dccc52201ef36dfd27b914d8aa86f6ba45d29424d9a,0x5ccf1359113c127dcb9d35bf9107cccb453eac7ca7ddbdabb1d0ca4ac8073393,0x1dfa444a221590be9448a49269c641a80b459dea2960ccc621f6480db38d4d53,(-0x1d89fe907e72d18c14ee59bae01bb37d8a52deef03d78c4a5ad6537c09219e58),(-0x85c00d6e876f8f517dae96101d246129e679ec6a8d32732d725ec85b029d1b75)),None);
  ((0x3faa2a093a19a02424f65a10955101f4dc015c43b2dfce8e001507abd741b845,0x7a1de10dacfda389ca663b15574bdc8ae8c5b6e7cee647e77b11ddbfc6eb8edc,0x2e8048e12f323b9920bd957ad05fd9a822f427adc41ababa1da6473882e00a86,(-0x245874ad2a870d1cb5eddc9ce9f30cd306bab3193874cf1d6b36ee327674778d),(-0xa1dd4ee4a5c83666d499617a1096396dfc0f869984cb328c3d10c65f7b3699dd)),None);
  ((0x30f9cd3076c51c96a9baeda10ec893105d920f022947716064e32717aee8e3c5,0x2caedfaa420120c6711921684f9f5a2b8079045fbf3a4efd7e4fa7bc8cbdb095,0x54d69862cc265bce790dadfb11678edda5e5537980fe6709d9f6a3b12328c702,(-0x6fe9311fbef7c672b54370623e58442d9eedf4c2259878b26549dacfca05e803),(-0x9ce5a28dc02c7a659baa5bae78cef34140d5202ddc7cdc881fde57dc9af06c60)),None);
  ((0x6070951e96e618be7d750fa819593ecbfe9c26972471ebed72c093714b7e6e90,0x7bb8b8086b2c8f273841de642871dc22c7adb51944d64304c0fe5f4c1d3e6689,(-0x32418b74776e1102e94c41d78856f221f50a754bcd003d67464cdb535e5366b),0x390fbb3624cc34475633c15a25997f807010a245a390066b68cfd4d912cf4dd6,(-0x97685d98fc388e1ef9683884adb7767e837c7ffb9d90a0b4c2dd2bb3aa10b423)),None);
  ((0x1ec0eb040164dd81f57ebc3a26c3e8606154303a1e5de3af27b1afd99d27703d,0x3df62c38b3077c694268ed7aae9a3329999e190eb81f07326e5cc3a1d1a42cda,0x2eecc98ec92b8180a2d868ee977ea5ed6a4dae768e89842fc6229717aaf940c1,(-0xb0d86703ec05a8c7d1df65686c66a00e66e5f5774fb06895991871270d0d3fbc),(-0xd390346d63a681acbaee4a0450b925229556dec5078c82ffdf8c11195c4b72b9)),None);
  ((0x1924416956ea2c1269062588569b18178011ea7cba1a3266284f48aa01d5a90f,0xc8e28127b7dcdd206fb6fee96eb88cfc7db7319826ac8cdb8b1fb8adaf021de,0x169aeaab77ae2fe169c09ee43150fc7f30e5669a21ed0c9b2f86ad52cfa384ac,(-0x64116c2861a76ee006e43066d21620a87554155a266436db917db3f1bf861bf),(-0x3120df78fad00e0e8350cf4a57adcd7a173e4687f22abf36cfed49b3974bb1bf)),None);
  ((0x2898ffaab663ed49ec57038cecd898fb84076bf49bf6f5c4403aff28ce974493,0x94f3b96ab6c9477e759d6bcb9934557e613a0f4fa4fb6c6f4b3bc46f335163d,(-0x3b4ee6da5ec8a54c4e0c51db969b12f408280015f05be99ad93f29c7dcad6a6),0x2100b3a6760e81e350d8eaf7cc629dc16072e635869c3b0673f60bd940da539b,(-0xede6526311b5722ca5ef543ed1bd90f32348d3a8b9748c1f9eea812148dc118)),None);
  ((0x34e2ddf5115701105d5d590f6617ccd7716c01b247948470c1514f12016bf75a,0x1bdaea88b78eb71777558f7452cd868e6d7fc33a0f85c3d2038bac585c1fd926,(-0xc33013f0c463dba8093cf83be128d059304da7101a950d94729065ddb58e047),(-0x1b5036e56fe38efc494a81325932b1dabc108e3bebdcaa62d4457c91cdc2650),(-0xfc3bfcc6a40c13c0944c1d5cde81ffce8def8ea7ec695e7fd7e9cb8b6a8a3c8)),None);
  ((0x4cb56bd83d7bb25558c34ece98dd878ca5fe850aa79f4bf656269fedfe165cc8,0x5d1f6fb463251914535bd81a9f9a8aea4d5ea5309b86c4eb8fb4a7fa15a03865,(-0xfca15162b801ca76e8751ac109a7fbeed2b790fa15096715d568c429f05384a),0x1911ac887dc2f085d977b0067d854f19d273733ddaa2c838a4ffd1a748927b38,(-0x564a280fc386ed30d74352cc4bbff2f7f3e3e9056f14c50e5e128a2dac551de8)),None);
  ((0x49761c57ce3c8c4f1435d495903e2f536f3be3712e76af8d0b5a8b7d1ebc8fac,0x3225035e1065094ef32d7f3e7a6f8ff2748025f96e0c0b44eb35576b61e150a8,0x15c744d679800ee10bab29e7b1baf5049320793bdb150d3288e906659859b124,(-0x67806f8501b188feb789a1eb4c441fe86c6b1e59b65797a2d3ef546566b67bc4),(-0x7741d239779dfc9f5ae4c36e557ff0f15b908f95f1d7de9f9d7dc42feeacec35)),None);
  ((0x654b39f4650804bfb7c76a3d254377050002240e2f794f8de21de5640fdc60a9,0x50ce7be2f1011218849a34ce62654414a8dcaea8b4db9b45dce3b76a6b121996,(-0x16842ffb0020de8f2647eb2e24d47de06ec611bf35b305501a1253d498d4b01f),(-0x245360f789c53bad113b8dfc100b01e006dd8d6fa99b7840ed4d90d0c60cf359),(-0x4ebe25938c6e059074364ac18b0cafb65066097e568ca6e4f85f38330a0db97e)),None);
  ((0x91605b338ea1bd98bdfae06ba25bd540525a3b02efa65df30de5c6e8c637d0f,0x1df405521e9a2232baf654aa3d2f66bdd6d57fd5bac96f5aa5f8ad2864bf8cc7,(-0x1d257bb8cc73bde4fc3cf40337ec5438975c0a29bf60fbb5f44efd3c45309e62),(-0x7efeadc0932f0928c11a6b75e66a9b9f6b7a1b26b150ff3b9304f769da3f734d),(-0x86230bae9d6fdccd763165a8a36057463f37486c4dc262be04877d6c3fd6e4ca)),None);
  ((0x4606fdec56d46970938a8f9fa5f24624f5b9c6f488b72cb1fc87e4feebbb1faa,0xf00d9e6656d8243e0350fa5b89beefa58e9af955ed650a6d90cce344ecf664e,0x65d4706554daa6ce8e439732a49fe3778970a8ea336589a9571db656c709893,0x32a192fc130107be9d7f54b96e24c2b5567b7894c37389f88c8f1c7525e319a8,(-0x1369c001a3e4e96fe45c3befc23ae378e5efcc1bbe87efd6e576c770f8369a24)),None);
  ((0x4339fa86a23242851a16afc3ab05b352a7b4bf53599a49dd7e29d364fc3a757b,0x6d07cc3462bae9160bbebb997510817040767faa9dbd13f158a5fe8a63a34b0e,(-0x248d7308d223f9b916c41f90c830fd3419c2a0bf943b55cb617a022f2814651d),(-0xe251c87579012aad85d950a1210f0c54ec39ec2c5e1132b130a15c85628e4e9),(-0x2bc0e14ca3cb29c8eed2306506a1a3e7f7a4bd9632bce16a3291201ceee53f12)),None);
  ((0x62332ee4f8ee5e56398dd304eca6ffbcde556467ba2c0d5fabb64e9736c701eb,0x3e1bfb3c0218cf9f7e6a2f47f179f29b0ad68235929b4921fda74bc89fb8ef65,0x39907bbad79ca7f804ef90a68fa0b9bcddd72a6d213d0b71e4036e95a7551ee1,(-0x59b7e4af7491ede2fbbf1c943df47caa608762cd8796d192b9db49d063551092),(-0x8fdef9dd5f3b5996d0e627c29d29ea8f1aa8adce3bb297aec1af75fca256c5ad)),None);
  ((0x7b9e0081b2e20f4f3d3f6d57f7bf977b2f192142a2a9e40b1aacd15140c88b2f,0x93854716ef9794d2057036ff3f97da686fa3a1784c42279e8abf1fcc42b858c,(-0x2d3352c6005b2af5dea156ef1e9e362c7d9fd6fea6fcb64c85fb6dd2d8916511),(-0x1c8f27773a6ca1a717c4a82acacf2d3deb8b44d0eeb1f6622e3ee9e5062f0ee7),(-0x6e73e75f38831989424c4658e3fab4906bc18ed5f9d7d2fde5c7dda2088db0ee)),None);
  ((0x7ecfa6b215265291f32d21771e88699aac3133fdb93ef3a479f95e2fa8742940,0x10958b5cdaf36afe557b7e60184207ce6d81883edf035bea63cb7da46c4720c6,(-0x76b86758756b2166e30ba24fe820bf029d5884a75cb74736b0bfa2e289fc5ab8),0x1fe1851e50f4d04dbc37b99daee55267963c936ea5e8aa06dcaeca8f9c0201b8,(-0x7e8c031d7f213e299abd3b17420fa15b8c7df2b0c94533e899f63f8ec252caeb)),None);
  ((0x6bda13918dcbaf8529d6326ae7a9c278b72417c2188c5ea4f062fc50639295fb,0x2c3fa803b162ee887d0d97a6734866f992f846625f314117075da54bb6c20a36,(-0x7b7c0f7e581030c714bf2d5d055c6a951c9a59e2647ec2ffa83ac6e30c01186f),(-0x59843bbb4bb5b60d66bff78b0f1dae6280738cf30ba1cd334251a0dc844c92f),(-0x8af7e21b68ec498c3ba96d5f231002a4fbb61a960417d186ace6c262b8c4a6fa)),None);
  ((0x19af956d2b5b4ac28b0c67889f19ad66a40f4bca1625e2007963e8a98a70b14a,0x5e228bb5fbae687754307287833c3245a1ab34684a5a69174f72b460ccb69d8b,(-0x4b94291739b90fbd3940026029c1a27be8b93dcc5ceb88a38c6ef996349be6b6),(-0x346bde24db348a314bf900b47f925f5c38b822733e59072b1a306bea58505eb2),(-0xbb5534293f8f2c59ddb462f422daa11ff9d883cb38cb5df5c0acf980e0df4c72)),None);
  ((0x45bf322997c4469aac6d1e4251fb3490e60e7c0cd5cdd6f5cfb9bbc53587b9f1,0x529d884884075753fd9a2f9ba021ff427fea7b9773f0d4885da5edc024c69e66,0x40133f4c30f162906b9088de32c5fa56c6db5d50aed12df47492bf57a56650f7,(-0x213c604482705702393e9b9db34455aa1e33779b863f716400c1436d80b5ae9a),(-0x4fc453d02ffa92c30bd57f963f7da8e158bad921c3e63f512da6c852013e2de1)),None);
  ((0x39632228d7d1471800e549128f91a680c9a64e37ae27d919a2609ce21522c607,0x6f59557cabbd86e8e4d546e2aae6ac26b27b671ebd049539991e9ef27e00e2e8,0xf5158d12cbe7593c4a2f98b5214aec23f34155ec9f681b01fc7f41f145f9c2f,(-0x381050be071f69374bd32614db7aca4e2999fb715c910bcaa04de9005d82e4fc),(-0x9d3d69e373c52ceaabaf8be9d05737feec1e3f85580cf285af31b9c8163b2fe9)),None);
  ((0x4da4821314574d4fed4dcf692c8b15b99b73f13633210333ce7871359b6e6424,0x314016034673d2d20529bc93a2dab6e462bcb5f66e1f4a6bf2170759a40a6e65,0x4722976a13d19c560f2f278aa8c5da659350a891dcb2933d0e2eeb810bf49362,(-0x3c93a543b588d9abc8d1a96c43c0a72ef61e67501622da04770c0b1444c5e42c),(-0x93803755a10c957b52d665ebd3ec349340f94421e48951c5ac3493085cceadf0)),None);
  ((0x22423cb8e82129da6655d94354181feb5b1c789806240b135c4da1bd156d734c,0x627dcf9be9be798eb639f6b776ce9ef34573c7a7f1d1ed220b1a23156f08cdb4,(-0x1c258efc408bab5ac5dc3d42b3a6a5d1020f8bf723a8db906cad611f9428a196),(-0x1d7030775a62c438734a71306bbef6e896b7bea8119f401ef79239b01e50f2a4),(-0x992ffaee7046f76b994be636a4820caed836437920533c0596affe0c537fe601)),None);
  ((0x4230253b946f9c176ea49e7fe2b913a35738999750b1e21555104dcab320bb4,0x4db9dd92f8d939e6e4d0b0245ef57a62d793b173e977b8fa69558741d1e5afc,0x429dcf06945bd2ea7bf0bbe6a345292bf04c529651db721a3a01d715829d4225,(-0x33c5da127f8215db4bbfe68b39f4de721c069d6a81451eacfaa52a90f8bba364),(-0x5611b81376e4a952d0c10da72a2391855cbc7a6ad62b35b4d86d2ca22a10785c)),None);
  ((0x63b06e648bf7aa8e8bbf75c0f3e0bc5d438683b063be9f4f09de91589756d7c0,0x1b17d88ed99541bf1b2cfd50b7d4d87ffd627bb708d0c2445c68249be08bae16,0xcf8f3f76733df6b95106a4517745813b532c0ef8f829745e34e122cea2863,0x22eebb3935ef957388b010b3a7ba6e5fce6b5f890ad227850cc0aafa9fc1b8e0,(-0x9e5b0f81759d429ab1e7d6b823b1c3b30b093133d1ca070d5fb9e5bb5c15842)),None);
  ((0xb2cea0029ee963c0034b61bf19e384435f14554a7d297b5144838c38e375586,0x47ea95da28d39aaade5edb8ed941c687603cfdd1508776e96d6683199e99daea,(-0x47e7ca25f6b53d524e49617c0e2d02c00ff8d746fb2f71749f5b4cf534ab2edb),(-0x21e03cd42d4c16d45f783dc68410e80acfef3d46837fd37e9c2388ef7f535fa6),(-0x88f38d67fd29a0bb558f7daf61e6e776b5b69e71e315e6e8fc393ea96952c386)),None);
  ((0x6e3d157d1cd96bb4ed4cb069497e6041334d698b1640a59a44a45cde613aabd,0x72f5ce3c9ce0c93d9339b91978f1d9c688b56b3a3850627c7d7f93c427456c7a,0x276e24300744f0f8d4ff5f5a6c9d7717087c6f285d7b186c49091720f47c14b5,(-0x83bae88cb84d68a8ac36c5204ec826ef7cdf2ef2e201ea4ebaa4cac9e6fa9b9),(-0x718a1af45d16287b4ff88ead12098fd7512895e49f9282d8c1ff5e97cb22ee22)),None);
  ((0x1f13202c95083f854583ff4cda13ef4b1e745a880460850e59e22c567d23ea24,0x66336d356c381b7ef21109e7fdfd7ffa0085087eb55c4778ad42025c90275f48,0x66e0be4aae3bb7e74d5fef49792a8e240a812e157ea87f681a28b15aec1ccef4,0x10476b42eee9c8caf1bedff1fa0b2a8a37ac31e51f66358879a10991776f6ef8,(-0xc5dcc7357e833dbbeabe01da6966d95a13e6f65eb693b5850ca883c6f73be149)),None);
  ((0x1d4e70e7fa35c13ec61efe8d7b8ae9e621144c1eb2454c350920e4ac81360393,0x7b2807a91ce09ff20a518d85be729e118ae448b51763e880abd15795ddc22e61,0x4a0ec4455ab623e1178db81c4540448d7ff3da3f837a99cc8c258fcba91a23a7,(-0x257bbbafaa14e98a56ff06daf19de62f738b0435568fc5ac20b519da81ef6a55),(-0x8c2918edefd7eb6e719dff90e32369342bfa78c06484ccbb4807ce5c05d9ccaf)),None);
  ((0x4c27afff3c45f32c952d3984e14e29a098e685c9c2e723e5fc8047ae60b7e824,0x5f2c99e6526dc87d95f11eb626c29c3a90d0be1e51a4c49e5bbabd114bf5a66b,0x6fc94002b1f63702f0aee78c149019aeffd35615c987ab48226c5d88a938ae27,(-0x1e18db0f0be37fdccec6859ba7a1dffc3ca0a0beaa0eb64642456935b5db61da),(-0x9e1244d2b3e24fe7bee0d737fc111185ae0b42e6b46eec54d38d06e67168d1bf)),Some (false,(0x6e64e5552b88e48f8ab3c1be8cc36053b0e6ec0831ecbce6fbe2fd29680c969a,0x383c510fa4cb58be6a9dfc9339b85145363911589ec5521025352a647bafd09b,0x389ffdd46732b506b5538f4e742d54fdcdd7a64aa415a616d584759141d8d54a,0x2715d384592e000acffb13bd9fa6fe4dc812d8593c766b9cde3d91c20c171b4,(-0x20bb897180b8b5f02f5d6a9f627827b9af49539219eacdef63fec33e377e89ec),(-0x7b089bbdd153d210d39e3ccf1f47c2fa93fe6126d4a3e1207339afa1c6e1b3c5))));
  ((0x655bb5ca314a7e2346f7896f50f3a0f4b83647cf80e5bcd0bf7f35ce7fdec499,0x20f486aa7d4091f322075dc1654fb220af4386bf06e5ff04ef74d5ead3313afb,(-0x4680d65870980c68e92b11a3260f8528f239e7c56a153d8a1cccd74d26de3a02),(-0x51cb428f348ee535d9ef6c15166f9ff901d160754d1ca361b7704703ca290df9),(-0x7cdc6339c7f5e95bda2626c076e28921b03c4d65608d991316d889563c4613ac)),None);
  ((0x6f74b17702a52b46d272a98a0fc7ed4326826ac719d2e86d00bc54bb1079321b,0x5b65c7fc4d7ed02c667f72e5edd20d1ff2aa053c2b584dda59a13834dcaec477,(-0x47c6e6215d2b0f4af95e3f2b0f921d712d3831d202a8f3db8e647c8c365d2396),(-0x8fd04fabebc48f813edfe7afb52bd2bb5cc724bba5e99edd3158a963acb4af4),(-0x7c2cbb27882f68997d68f0b98a1706972637f00be61c0679bc1ee1ca36c0f3be)),Some (false,(0x7ea78304507728dd99f0086fb9e090c5967f5f6a9c5d8fca0a1ec954baea07cb,0x754069dc0e577bbaa4e6e641df716fef040ad634ffe944b8a97b3eb227cdd25f,0x4f959661c0e88a67107134b214fdcf0fd8e59dcab02553d0a94da16b35533a3e,0xe84363151382c0b96cfaaa5904d2bde8ae9220a34c6d34cd04f499896cabb3b,0x3f1c2afc09097c1fd8e98e6a657b1c7a41c100470b1512d12d74112136dc7ec,(-0xd27e3d7de00e210204a462b9d7f9082683bfe37929348b9e33ac4518f83ea502))));
  ((0x2a43c009484b1faaf8dede6f6fe34d7fa6748fc3f5026e350d124f34823d3f0b,0x3859dc451e6c19be1d7aa2a00dccafda2c2b74c58bf065827d8cdf29dcfe3f77,(-0x11eac33865f49cb6458ddb121c07c6bf5d296a9997025f0c0d88d0f9b48fa897),(-0xc8d4f30bf091fdd2c7e6cd9d2fc89bb3b390180dc2ecbaf59c2bb9dd3030961d),(-0x11255da4edbd75bde11d85bc8a72bf68b17eace0d948548f6e619de37ba2f3a85)),None);
  ((0x28e5aeef868576117d40fba6d18148a6057ad9fbe8de8d038e2742ded97176f5,0x5b43a4a02f8caf711a26c0bef6bb06a23c670402778b076de5637978022a0142,0xada45f00485cdc585bbc0d708cc6f175ac031ccb22d2db932fe13be417542eb,(-0x87bf9f1bb7c55be5606de4717c911dfc60e5f78def6836f4c1147b70bc51031),(-0x66dfc10524caa6ca3e6ac685c0aaa619b4860909ae9c1abfe650a7492bbb8a78)),Some (false,(0x14f0a3130b63e7d407bca19545596c314e5ada1000f546c4723a3f18ff3d1c43,0xb27a392e023212925f640d90ee0cd8e689a7ab75c62b50e3d64a85b856cfead,0x1d28e73151722510d3f8d7450ee40f3e7ccab14f311ce92e1d27495fd70cf90c,0x1eb8bbb2f6884335cc9f83d0112c12a97cabd5476bb91e75595be4800db36cc6,(-0x316b65d42788dc53a4a1c744319c19048d4148bf68a989461b3b368c3ae2e257),(-0x577ac3c7f5edba6970e055cc480782ffb5333092c27194f5d2530ba960d23fe3))));
  ((0x4ed814c2625c1d7c498584c5334f25112f75f78987bd7829231382e2806c971d,0x4a9a3618c69708b3a0ebb4933eb7cf41ff12ad1b7c3b877733d06694ae7cee74,(-0x2741af68dad1871d9f760df3472d4fad07bc183f2d5be66e0efa9513a1be0f3),0x3242a07d7607d447d02ea07d4802e28b9c5d26b297a1f39090bb084e1ee6bee1,(-0x37685087601c3c818fcbe3ad2c2d83cc1886aeb30dcc5e71f1d925be6aff5c0e)),None);
  ((0x1e373a295065164c990f578e283d6f23959bb3424c140f2d52cd35bb257a46a,0x5cf09fbd15c1e9cceb314e601d2256c269412f5528c64f593a519f237ee18d40,(-0x515bdbc1330b6ea7ab5db5f8282ea48b35e403c9637a7171bf47a9d05997604),(-0x5ac2c1c9366186359b9d0ba28cb55c134adcea8510aaa16f5cd9d7b9892ab482),(-0x9462c230204d7ca87879157bf54c48cbcdc4a87f8fe5cdcf455281088ff8a85d)),None);
  ((0x5a20eaa3c802b70a60d1a119fd2cf6e5b3ee36a23892f4a5f6786ecec3ae4cda,0x1aeda82bf672705db81cd6709959b00126a458144927b65a421b4831f3b98911,0x437487fc843d92abd35a20675e054ce26216d2813947b13c5894ef9c8bdb85d0,0x384a25c342f26a655041876ef003149181f6e409e99a58e94ab34929b4385418,(-0x5525fa3640a48c936ede38b084d815225e58cc8b8bdccc9c5596c0f7ec772786)),Some (true,(0x62288a7a7534a20812a32f2e4cf3e6365ca24fdf16486431db159cdec9b28d3c,0x7f30d1f97756d4fd355d922222e8719b3c3249ff45da93b17407f92df152c916,0x12f60705e06e83204f29b91ef94699b490e687aac8e7677f22607876a66c7906,0x32267f1e539ce50591e600504b25bf4553cd37ae439849d49f44741e9592aebf,(-0x43908b75abbb3561d100c5414110600ec25132b0f3e266467001104bf1edb71e),0x535d9c27205e337d45c5d153a2d87c6cb3b10a1f631a370e25a0ac561c85460)));
  ((0x46637849cdd4169503febb4a2d918d7e95b39295c7cc5212ef5a4cfee2f06dd4,0x2e7cae0fee35fa4c9087add6945b041d98197b088db6521ef54365d53f26dd9f,0x331cd267368a04cd89d2d2d5f0b4a008e03acca6419566c8ac340ab839fbb1ef,(-0x8e26ee2cd8c522a6501ba7f231b4ead37235da50d12bef3f8459a0711528feac),(-0xec9ce80a68fb60798efc1c67ca250525f8877dde22bea4ac5832aba3083c0839)),None);
  ((0x3d16275fdfa6c76e6dc7c5a83c4a8ea28e78f37bd92b054247d3854983eb3b,0x7727289b97881177be05b3366e11e65991826f16ec5d1626c36ac731a0007a09,(-0x15d3024f9d8d4327596b7bd37392fa676c271c69231718c9a2b39adb74890d51),(-0x32e3e9d2b0ac9e0345cdbec566c379eb196668014bf519e9a3f59974111803f6),(-0xae00704181eecae2fe5e7cb54de5d2da25d3d71f6e0516beae4bb7b4801b07b1)),None);
  ((0x4cd2833a234fb683f4d158f60f892ad9dbd57dde83a7912f00a1f3d52cf3acae,0x45248bb18a51f8865df5a257e8a8eae19aee9defcf2a1633695dd3becddfe8bc,0x6eeabe54f8165cff7aa030da64bba5519895ce5b8fa68bad77be776e60d0dfdf,0x2a4390f5782df30070edb9c56570caef2f0a74445441e964d8bdaa18ed35ebc0,(-0x955b5134a9be6530a5cce2bf5f75e9c39b156646eea6bfdcb9e98632bd3e19d6)),None);
  ((0x33e2635d8be6ad0ae81266077ba47364cbe7f9df0cf0dddb2c591f2ea5ae4ddb,0x38c28d3a351d82050e0f0401d878b51f9983bb182fc3baadcaf900b49eecbddf,(-0x8c1e50191c8e442f67369775b43ec4d495f1976acceb936be6bcc6f6c4d55fe),(-0x2de469f36b34c98f77e012402720f966ec9100cce49513167fc1ca5b66760472),(-0x7c0bc4c50186f45c9433ecc6f445089547832a0a70d0e4111e4bdd7f73f81d74)),None);
  ((0xfa6cfe8e80c57243337fa468bac8c1914c19bd6aedaf1dc0ac0b91b42e9bdf0,0xcbf992fdc86e2303ac41b45398f6e71a485a04c46794001c65ecc6a75d00da8,0x4236bb1e7c859754fa01266c8c59f1352bee35e79756d5dcd7f0d44df5eaa28,(-0x28dfb97f0d180c93658386e494693c7b64337412ca9c61b5a069c052c3c9e872),(-0x326352eacc54266ad984d66f951241bb4ddf1e5370c3bdfc14162c9b9c5a6932)),Some (true,(0x3cbb1e64742ad100f661d50253e9121a6fc87656561fa1614f2787b5a3c25875,0x1c90dd558c06558541e8c17b7a91b227e23585d7b5655a175cc79254deb549e0,0x18f112352075b1bc4ffd63997172f910240a6665a4830fcc7d74fc8a4467f6b,0x320ba10cfdd3b7cbbbcd31cf604008ad53050f187e90454ee6328811773d0a51,(-0x1fe9072e922380bcb7b17d7407b00144a43760b233a7d1d411cb31c540eb9696),0x4926537679c24939989f3dad0981c10329a042cd8ab4c4dbf937ef0f693bc20)));
  ((0x36814dd7c47c9df534dcf7ff90a23b8ba2a9f19c89a0fed96beaf3514725341d,0x48e66f1fa1774adc81509ff2a38de9b279d80544ee21c91f5ecd575987787f0f,(-0x16707940152b81f86a86935f4424037eb679a01690d2c4ef65412b59c15fb881),(-0x131bd66fb6183377c45770279307c5f0f8111d0a7d07aa1d70386d6d999a600c),(-0x2de303e1f1a9ec0b4e215a0be36a2dbf4a76b2b140ad738716d82f832ce84563)),None);
  ((0xa35c9e7b0aaf119aae11f59b2849fa4dacded80b3ece3bb37380987238e92d3,0x72c11857cee2072e1501192c150d44d553346d59f0a740a04017f99c83d4a4ed,0x124f3f8e2bc328368c13e539a1c7eeef7252242b190e01d40eba9f06d719087f,(-0x376023e3ecabda4b60269781bedd66a1c81b5e9e6b1b6f3c08182e71542a9a83),(-0x8c22c31655a9dcd33b0ae1d338123647164ffdf47fa2e1aeeacf289c14940195)),None);
  ((0x22e958df92ddf7849c42078a9469c87b6ff22f4bad14ca78b6dc513bdeee3d0c,0x1d03e2b68c8e494536a868c33ebc09d45109eae47667549d80650eed9c6ae3f6,0x661098812ffb5ac3e2b6ecf486af9a3d07b4691b913dac428c1d545e2ae4d815,0xb2d67ce7661d6ea11c518de254bc9ee823531501654e255a3085a2093827c5e,(-0x8032ca27cc789f4b3f6b1eac0bb8454f0a1fbefb4215054e42fb55c9da92c410)),None);
  ((0x719a95cee82484d09c469ba2d004b656a27bc6ab1d3cc61be292a7c0fe857840,0xd2d7d8ae740b254617c00aed803f2e91e5ec84d7e2ee7208ac6bb27f4623ad,(-0x2f1ddc3a7e0d77d9e59173bc74f9796574ea4f4cf7c71f603d6fc6f01ee7b78),0x38a82ff62edd06fdc16d4d1119e5cf7939660ab005af676f211f930060c821b0,(-0x109fea8f5d8efdfc52016ab0e2a3a65a0fdfeee1779f23f87a15d2cc1361a7ae)),None);
  ((0x2c37c6fbb27a1f5df13729b9fc99865a85eb198423f19fcab965620a3f2a54bb,0x7456b2a19bb788f15ab135cd4eeddcf8bdedd3bcb8fb2e7f9411fde5c3df6072,(-0x64d24fe4d01c4fa9ac819128ca101838016ba25017719b3a83ad1e49b7cf2757),0x15c4924d437409e9ce1aa32badfd0875ebca9164337f8e8459c9cce428dbe8ac,(-0xa1f354069c546747c2f174f326088406350fadee2c2f6aff9d2bd4058479fac1)),Some (true,(0x146be1e7c9c842667a027ed3b759ccf6b654619648cbdad381480e7d1928b259,0x765b7ebd7c185fdc3a12783d1239fc08a63022ca9e2305a7629225ad977a404c,0x28307f832f83d54470afb6373f7c3b7a9caa23c29138ba476999ceca98d0bb2a,0x6450f1432746aa693eac307696752b50560d93ba0b0a2b5b73bb6fde6f7d314,(-0x664ec0b41297b30f636047c49a7933b8021b8973d075c55c256c06f3fcb6583),(-0x497d791346f4185a667ac31fb1a8762862c91e471132546f0700ec6b8f0606ee))));
  ((0x488861f17a879db9dd07f3b38084e14834a9ef48b8213696c00dda61bff383d1,0x596fb8cb4a08a38dac0ec16c681d395a2480ed6f83024ff7cbd7ea403238585c,0x6a2ee18e62711388a56baa8982944770d9ffb4491e15342cd741432b3c8b1ccc,(-0xa48f080cc1df879492da95c0436a9c9861e7446c110bfbb48b78ee9fafcda99),(-0x9295b7c38d8c77b6a6b3fd8fc8659dfc3f3a7716f4afb4bf9ee1bfd5ac103cb1)),None);
  ((0x7042b73005ce8da92016b918df700d14dcfa978c423e3af01be50e020e76538,0x13cbe68b2e9b83e44d281aecdeda0473dc67a39263e2b3a7bceb982e8b8321b6,0x1563befe28636b3cd6c5a5fd843faa28b268e03889c798899cd1ff8f9fafb3b4,(-0x6506115828d2057ce4e39eca90b058b11c481130c2158befe56c10b5eb8acc10),(-0x688af9495cd1c227f78cb007d58d216d3eed5b000296493648da9f5d94bd4b13)),Some (false,(0x414a78dc5ec6a9c6ef90c29a86d22ccef235557a3448c3e2f760e49e5f52a230,0x513105651b69ca910d2fbbbf016c154e7ba21af1c09debe0d1a176a76035f793,0x115cbb319983757cd21004026949a102f7fe5c9b935995bb7bc27c4e00e4bfb,0x3592e4443001be31dca48c603aa374d9d77f40e68986227e966c74f714e6b0d0,0x2088c62935beb8f328772a72d07ca071080493a1cc44fa2c6bdaec967d074584,(-0x47882817ccb2de6c19d79d461646ea2307da8f219a3a412a6f7922e639972c5d))));
  ((0x1888e320b28be7bc988e3fd13f25f824fe47980b48d277458788727ad0eeeebd,0x1c6058b877b3095be9270535a11fa14344b5f64b8406ca5ce0ed7016275f480,0x12324f86172710234fa6dd3f9b8afecfc6e418a84238bb3a10823f4f71984de7,(-0x3dff46653ab9090aa8b43eeed4bd720814215056556dbbc5558772f936755532),(-0x564f6c19e7b5e0d55c61b45cd64bbd49197a72c74b4fb58b5c9b02068d586bed)),None);
  ((0x258250c4efea2e216a45c2dd6799ee6af6ac066934f8a1067bfe6bfa2dda709d,0x5f01127a10ecd2717df1002aa61aeb264399912502254c930524adddc3893b80,(-0x4ad9d21256f51468dec9f14e8efb936f0344718cadf48b68ee26592fbef0382),0x8046649487571ccf39572d0d3026a4b0a41e60966030365f7bcdcfb48bce541,(-0x1ac16d23c6557b186d53720377daf47a836a3b1a410ada7efc7ea6f8fe5b890d)),None);
  ((0x4ce2ae1625d93f3efae3386bbb8c53868ebc7b07c067fd5f642d840f0f8f58ba,0x7cde5a28be2896c66e1d9a52b26b304110430528f9a06dedbe9d77d9eb268a01,0x3b85bc116000840063c0444ee8263a293530aeadfe5b2673eafd5520095e3720,(-0x99daf7b7d126f8379a87bff77d89c7dd22d94d89b00bc53eab9924d7feb9032),(-0x9c5147ab61fb9380d30ab55ce1b6cfadd0a0e2050dd99706a73f370492e23716)),None);
  ((0x18bc37e89afa5985f49b3f3ca1b9009a4297de2445abd4b03b41096e526d4161,0x75d320aa99c3ee25189d3d050de17b37f453ac8b8c94ff8c92346b42454fcef9,0x4ba190c5f557bc4eab675ea1dc1aef992052838dff202f4d6b9af3b0336a37fe,(-0x9398202d828624c9c52aa90849a2ebfa67fb506f0c73d1c24f6a8f535d72c7f1),(-0xb37fc25ef552ea21dd38663d1b083f7a8577a83372571c0f994e3ced0da2ffba)),Some (true,(0x23caf1d364e221c522e6d9e7b955924e81514ccc80af8a2cbf3ebebb022f0862,0x19cbf287d2e4f98f02a48d71032fa0ed6731d0f7760b5e6de96b70435585dc46,0x16c4d7aeccc38dc6c80131b70016c13f14314dc9f1a8fef3a07b300329ed61e2,0x12bf16de5dbcae05e0ac31cb26d1ccaaafbcd3c38cdf187449f0fa6e95821cdc,(-0x1827f123d7a862c798bac5b0b428a29c5290dbcda0d0a5d1a3012f31ef4eae1c),(-0x3e7d4c75b1e33ed623f58dec6fe34478141c26d180f4a9955bc3accf5c48d098))));
  ((0x350a4e0f738847dc0a492314eedd6fe77b4a51156e7987dfbeff8e3562ceb7bf,0x69746ded4c6e329166d99845a10fd5476ef396e132a8a05943133d3b7ae6621,(-0x4cf4e528684f3df60c03819639cc47d328002e7783a16ba95ae28f5275bbaeb),0x78b5e8148c44ac53772ed7cdf4115ddbbd7ba37f6ab2fff981a8e00f39a513d,(-0x11f01e993fd0d0741d4cd021dbe75e650ca5efcad4096610bb7cfa5f22f963a9)),None);
  ((0x398fd0d05c1f7ff7ce8158b9915a9dee623660d112e311e18c1411e16f215baa,0x43c7857c3c0f84138713c20c9e0d2f6567db2ebed383b916c58c3f1bb1675ca1,(-0x15a3a80aecc3d8483b9a8545de0bb5a49a7f23ac85574cd59cccc41517eccdf2),0xab37e87e6a5e1420139083ce0ee7a9de9b9d0406aaf8fe7eeb7e5b80caf57be,(-0x2959bdf296e40fa77d5e937ea28524e0595e67d8b60a6b95a991d25b6c9dd172)),None);
  ((0x40c17fc5e121af9b1382b3bddbb7474db5b8f9a94037e2f37f6f9ccfafc0b901,0x4650f7bef4b0462ea401427acb5f313eefdd6be7c3eedfbd4987bd8c9c3f3bca,0xa015f30301f40fb2ca888936817654918b39ae4b430ffe660769585a4a9fdc6,(-0x241001e958d655b3f166a2ff32105cddfc280315a5cc7bece39cc05d653eaf39),(-0x58d020074ed12ccdc78a5e83b329d8e179e07ec890047325cc81f0f89f60fa23)),None);
  ((0x1a6f95c3ffc6f4fe30f66f0655371ac081cbc0654c4622853ca947aedc3d0e81,0x4e19d703e8ec06e0c7c5e4bd89b6d41a9d1633f07849592dd31466ee28f22cc4,0x5de1de6b86e487b485177da23884aa50b6e8a1444c156f768c8fdd0d94c3a30,(-0x42d182a70f7b8cc335baa1e83a743bafe438c521c60dd4d645e6db55ae819385),(-0x542cfb4f2b79bc3f8ca160a4c80095fbcc1c24eda5151750eeef8f28f0600a6d)),Some (true,(0x695610990c75daa069c813a631a6061183549d768846962090f79dcaa5dc2be9,0x526e2356b1d33db3ee1e11c8091c11dc69fec730bdd5a0533e450c13a1c7af54,0x10215576ec6ceaf9f62e43ab1bc779efda9f3550ad1d96a4b163ba2ac97d05f7,0x11a1fe348f8b92b7105779902065a6c7400e558fa86b61bc0b28000453f54d9f,(-0x23ff286556bf4e50fa5a581ae2fd33f29161eeda5c9ea0fe87e48443c3f56190),(-0x1c021090a03e3f67b2a4836b37bceee8038f62af657ec430a987ee817961d9d6))));
  ((0x23afdf0d6a7e08f389d5a51847ced4f31b415ce3fa76997252d3c8042459fb4b,0x719536c017cfa3c17acee83a1939f41c822b8db2c7ab21ebc87dbe019385bc0a,(-0x2199f10d8da725122fbafeccbf661c778e41b66bc4f2105e2b8dcfc70bc616a5),(-0x8520abc93b86ee94e7490ce55ab2506ac00392f8a6033f54b45e8ddf678ecac8),(-0x93dc7aa8aa7c250cea4f46974c5b4fe13edea4e49f463e1047ede8951f4c5aa1)),None);
  ((0x28673d4d20fa9c1da7a7d66b9bd72bb8aaccc5b432cb4fe440aa9ec94d5e4855,0x7605e384da666ce248309556829eb2a885b2150c839606128462591cbea71253,0x5ad702fbf51062ecb61a54561f312b9e9f9b9dc38a6c9bf1f3123694a4fea7dc,(-0x3ace3144d2981fd68a127ea4c5237f0bc27c47a6e2f4e56e7be8f17f9e58bf15),(-0x7bf8665dba40a1c248adced094574d086cde64186d31ff4acf981198cd22c4b4)),Some (false,(0x9c650e9b54c7826b4cd04df52d3d23aa6117e9577163ef05d70db1da2639730,0x29be7d8f82a6e39497d940ec819200e8771bd3e38cbeae5fba82543443a2f1e3,0x2541085c85887ac6a170ae109203c4e5e3b52e8d0894c28fb6924fc8d977ca98,0x1ed69e8fb9a0f46b5f490e46e64a9247da06e06ca1c633c3327175bcff651101,(-0x3cfcf885d3e9e1468edf2fec680494d0e5fc9a9a03ac7942d75c28af945f8c7e),(-0x721be61ba88a7c76de8012b51df7b0e394db0269c21ef1dd9115b581a8025bb4))));
  ((0x525144e31ba2780a6d75ce270b192f93323f054e3a056b1ef74ed24c0ae66c78,0x4ef69da42f8419babf6cb6c5c20e3b913d8e6bf49649fbfb2f5d331c91d742d8,0xcde0d49c93c42836e9c1ba7febbfc9a6b714e40f336bb42ffcd2138d711e215,0x4b58a8938fcb9b0fa176da780b51ffe331ef66f5f51c5a36d06c15f735892a0,(-0x18fe49047665bd8d928c9f95b4c0fa16d5826ed9f045744aa568625a16021f1d)),None);
  ((0x35465809ad5def171b2bfb58124e015b3a36aaca987e41b85e8da5afd60da6ee,0x6bfab84c52496b9239191da5df149a62d6afdeac84cc586bd8bcdfd641fa0c30,(-0x439e89584c4c97590d5cb660b29ee9350b7a0ab6b6d03a1b96c3c2f27f4c7fb),(-0x48ef20232478e843441172e04c0e845399e3c488e1fcf6223b150e2f2ad2a326),(-0x9fadb0d73a7b2fbbc0ae165d33646c973ade8bb5d5845a879e742e360b62adb0)),Some (false,(0xfb308074d5c933379d5a7235fb5c36717668e748ee8c9ab3485ae054b0aefce,0x377e44a7603f8631565afac9f1e95368f51348484c1b83367c8d662d86b90ae5,0x2cf127b0ec64ef94537c58c5cae4fe7591e2fc3665a6c88b52eb35dadbfae953,0x20731b68a5eb851a48abed40da7401c62176a92efe4cd151b37a65106191ab4d,(-0x3edb30329468d6e9b6a7c3e1166e6477515feddc611f259fb7753e3acfb96528),(-0x8062e76fa2085931cbfbbf8bfc9f420032613026b0686a4b40bafcb0ecb582d6))));
  ((0x76145e80bd944d3b04b759c1ad23a0bb149d0a3d63878e4bbf90aa12d12533b1,0x3a8d4a424e897751a95f74c919a41bd7198083b11858e603989d2d52c2d965e3,0x16220f44f9ffca01883f2e4bf4a119d5371fe879dc0a0b8b9f3dcb50a816285c,0xa05c2817e55fe73d348e58af2931a3c281c601c829807cef1317b4365e33921,(-0x25b43b68b22009d1b305c9a84cb58a07168f3a333a7177c8b2b7795550763cfa)),None);
  ((0x18c5bfe58d2c9dd2e8bd77b4d6ea13dcab3a43cffcd0ed8c608bec658d135459,0x51acaeb92ff3674031943f0152de2070dbe5e98e57a934c39c276e5ff2b2bb75,(-0x5224ea394f33dc8604a40e66fb122191f1ed07c23e4bd034dd8e4772b91c28db),(-0x6a75f3bc564019fdb1858ff314668dafb6ea60c41905fe534f129c9143c2c853),(-0x8ce0ee11ad447633986fa5611aa47c3d8bf164d72b15b7692e2c2387e8ceefff)),None);
  ((0x70dc9136f5e352f230cbdd689ae7d73d1ec8b4d6bf4d5888a180d27186a88c6a,0x4ce7b00ace68ed9a47f6207b7d268b851bcbd00bc04a3d7e54b9f353f4725665,0x2f521ca0fda97d9b5eb274966ee89b679dff525dca3fc3ce5a1f153e8d99d4bf,(-0xdd1c8bdacecad799cd188dd75d9d62bb4035dc29dfd552e2bf19eeed9007108),(-0x4508dc56ecd607e1e9f223f843227ecafa311b88be2a81670653442dae285a0d)),Some (false,(0x78edc97d284397cd0eb6a59af9b9901bcde45aad8c20aa48a2a6abc03e220ff7,0x50b7c26e80bc90f1eab23876883a77352b035ecb16016a2fce0069ddc41b15ed,0x43cf3f7f8215224e23f012135021a29091b38a2ab1b0b811cefe8c5ddf59dbbd,0xc3ad9f500f87a899680099c40ce9799aac016e714385827193e6e441d7dc353,(-0x2110a7b783d2c10adac5a88e6b29e153c62c41c43be61714e113be9a41dd560),(-0xa345063808b9dd59dbd2b72a145cfce877a71ef59a6415338a6931dce1cd3428))));
  ((0x5b68d752b610751c3d23c5cce115e89a5ec6f82f0d90b4e38eeffb6c750c9bed,0x2bec8d0d7757e3f2444acb8ddcc9f6557b728e4dd97ba2fc370e58e689553c72,(-0x3f58d8aecfe83dc562555114800497b08b0b9bdb85632c194d44851fd5edc2cb),(-0x5de078fa61fc5f9f33e107925b99053feddae5de40b72354b0fb2c0eaa60a7e7),(-0xc153d910c0fd361b29469c293fbcb668b5e56b731d0c06efad8ce2de5b788544)),None);
  ((0x2e232e3dfd29105441d416b738c2d06b86797a3812343bde09f475c26ed97608,0x61519474045d322ee924aa8470911ada37816faf1c312b38d6789b01c9008190,(-0x3234c41b223884bc63ba27acc2028c04125a9f87802bde6a5d1d5ecde7d08cff),(-0x38715ecf7f901e2934e5a67b8345c0c4f5f6d7b280464bf8eb587636c95e11b4),(-0x5da003dc912b15cf2c21f23b7974229b4f95231af5b76e28379a5511082bb901)),Some (true,(0x645026fc12791f1b6ccbf47211a928f7ea26710d604340570ee5adbde5dd1e03,0x647d80418e40c19f4f799b2f5426805c64c49f7825b6a89e8cc44a1598aa4e4a,0x231410d0bbff985946fde8f1ee60471ece1695338416b4e831f2afecd18a7c01,0x7e324b74a80ac5c5512ca5d56ce84acb3abf7d2f64599ca75b26de1e7d4c146,(-0x43a43a4ccbf78265b61e19bb3b7b6a9bccfed4adc48387b25512b4f749b62d83),(-0x9942ed27cbc92dd95d4bf4c00f6f8411df7b8c57cbd856bd8ee160ec96e1e82))));
  ((0x3e81d6bd98141088bcf38d0e7cc9bb4036359f9cbb82af499291f8411fd4e9f2,0x70501bd75aad88925a0934ca94c16bd97b3b5c42645c717d7ca6018bca1a846c,0x472458cafe4fb54c1c5a4361ee47fa3f8388ec9e990e80ff3e2e13c6df8f4c,(-0x625b0836cacf798ad86aac169f95aa506e3008d9de57c326dc0347672086dca6),(-0x107cacdec1b5236bd202b3c59babe87d97cf34c4223926a0e51e71b12d710d5ad)),None);
  ((0x57d9439c3077bd75dc6918f89cea600f1182b64ca111c1c48fc3f8675c94542,0x16a1e092baa66a9943320552ab17e4295eccca0a8a71f870de26435bac3a8354,0x4406171fc83246b2376fa343c013071cd7a654c8590e269e247dff0cf7f7b7ed,(-0x6a8f148512552c4f48038529da51b1365ad0d319b030f6ddd161f397f3fe5312),(-0x8dfe214d9dcb77b57fca1d1eec1a475a714b435e304d77fe929b211cd86674c8)),None);
  ((0x55808ec1f709d0210ac361d83916a641a06e430cf473ccfc382995d898cdb244,0x2bbce1bc3860a8b37a61c8897b261dd428ed8a9df273faf64c8fd60f591bca0c,0x3c427223b95c7654b628501ff6edb0cb55b5a044dddf3800c804f5910d7d719,0x1df06efabfbc574d75752006de3ea58af7220643ba3f15f3af849ab66fab8cbc,(-0x148bab1c63ef009c4cb4af290a6c2759352c8e0c0c9655c4c73ad1ffb2234e90)),None);
  ((0xee06076dc753b6d8fc1acc77283b74bcb76deabaae2da88d7f5712b81d99c80,0x761434fed78a22c8d4683ba8501b1d7da5cbb1db4029a9cfbe2b3025bbb5cfad,(-0x2a2b4054a25f45d5153d403141ad09906d72bcc4e689ae5ddde301562a860f5b),(-0x33775fd6dcd83efa41a8c45308648c2554b3f47e26398a7217741365e34b3260),(-0x7f5a23fdffc5f389d86a59a6d3fb818b937669882699a901491150b25c283f9d)),None);
  ((0x4aa35fc0a85b57e8f8b88070cd61363b4cc9c8ef8087ef2fa8b577956d1454c6,0xb6280f2806a0be7ac2936ded8690fe18c79904d7dc7e99821d4b5adf7379253,0x6b32a67a9a0b1d6e75eb952b11115a211e05dc98517c536c8f0c4dd4833b25fa,(-0xb96b28c26d46df8cd474f9ff183e6908e3df09e56beeb541f7a10e0021dee0e),(-0x711320025577b77307b314338fa912333180b733ee9d4b3cb7ba246e07452f38)),Some (true,(0x3e8e57035abe0d96886576e67f24917505e08b7b0e4eb74a25c8d56d9e04688,0x21691b4c8cac8d358f5fa7f290efe060ed70da69b6115e4a6819ad2a181856bf,0x6a37a80a57ba6140db5262ea5355a3213a1ce46a46f5031dbb1f1b8c152bbb6,0x23c2606a2b63d41471c4db44151ce5434fa6c49a1e085b8619675481e7454bef,(-0x3a8b66cf87aafa1ab44e9dde84e7a42b6a1268865a3da19498113dcc960604ca),0x19ce0d888b001c54c53d1cd381dd34884730cde36bb336b23d579a71ea842d1e)));
  ((0x4acc82cb5e92b91f82c217862682c01ec660ecf28220e922273f5889c17a7d5,0x29206e869ceceed15eeaa51787064050c585bc180ff42d255c916435303059ee,0x899f5dfb367bd05740b5a926b08c7dea1fba8b50ab97e846076d0e684de0499,(-0x1dcaf992c03d1895bb6aead4aedf27445aaf263502699a6b652e5f3b7969834),(-0xa6a372c0d4d60f76fc496c2131df4ff5b535e3bfecd4ea46786e96cdfacfa01)),None);
  ((0x4e9a60cd9e9f8c3f0a907bb3bc7426e50a9cd7addd108fad597f690a18c15851,0x38902ae0463e1d7ef7ea7a68821c0860a4d56cabcad26451f8636b9072cd5901,0xd0b1947e2b2ed4921a1f8b8dd90473e9bb5609bc808397cb2d60433023d6ea1,0x97ecdf996c0193660a6208daa0845ba982639cd30dc4ad97d65f79bd04fb45a,(-0x166127e834e56400910087921950cb69f392a4f2ccf4147116bc7d0c1d178d3d)),None);
  ((0x6322eeaeaf468d0529d560dcca892487f20cbf6ab8cfc6dfa9b30a1591ff630,0x5a167b071abdc96dd330f98f082302c7e74df929242b764b39b90043c1bbc8a3,(-0x174618470cdcbe7440a65d2203eee2e7d1d1e54ed938d9f46fc63c64fe1e5ad9),(-0x44e16d7cc34d8c4c9312c7581f82e6dea6f7e06b6af535e2c2b088f327d17c3a),(-0x51d300facf31a725525221d573f393b3e30c239946ee889323b1ac47f887f617)),None);
  ((0x23b84307532a01cff4269254477608e574eed7fb3cf40c78756fc913f83e5439,0x7b1371642111e64e13b004a1e2c82202042cbae18ba21ddcadb0d4f6ebf3df0a,0x3f1ad8e1ff8abb7f8d7912f18f7ec000c10f4afcd1b7232da9edb3145684a566,0x9461e6f2e16acacbface9d84bd8bb612a612dd4a8d792bcb8d9752632376a4f,(-0x7db5d02dc3bcd66ed0430b9c7a0601f2041bde67cdb3aaa221339a3b573f2bef)),Some (true,(0x38b134fcb2edcab14185bba354a60604e140d8f943881c570611d622154c2a75,0x1a683ec8479e69fc479bbb93bba4d7f52469c7b35e5060e8a91040c08564705e,0x22587d67995c0b23d488a8e3b37a34dd8bc079ce1bc5f4c86594f7210ca87905,0xaf49d6a0b24e24f1628d77cd57eb39328bdd438aa0dfe4d43e9eebc51215a52,(-0x4a9bd12e802354f9e5430f14586104dcda3c07fb6d3b2677ae1943b645bee75),(-0x554fbda0f895fd2c2d20f2053f81a15ac88f5b422fb97cd1379b56bf21986ccc))));
  ((0x6db79d4b001f4031c020618cf2815d977a4875e0ec42eadfd8e0d3f40b9ba4ae,0xc277166834fbf50c3a3f59f302695df43509a3d809155095f18812ba5d721a1,(-0x13a9554a3c0634063dd5b21201b9575e79b654215fa2b15b9119f1a27e079d95),0x37e2a2c200898c463a4dec99bceb83db7a845910cca1c49af64c7d2d1360c34c,(-0x2756e5dbac26cb5376e35cd3c44351ae833b4f05b6133142c306ae311431c133)),None);
  ((0x45997974317248bb37daad58ae6012f4be854f783c828af1e0d942e976c6a6ea,0x79da8f28ff1410729c2c806fd139b054472c2123f5b8d92bf0ace67d5a9e660d,(-0x5ce44ddd88657084c212ea9362774636debc832a93394a2b32535ea23a043c4b),(-0x13e3b5280f61ffc581727286236b48130402542f7138bfb74ead49be2ce7ba34),(-0x60db78fa78f32433ccd29819af66f538cf4f2c952ad50414390e5552829b0ea3)),Some (false,(0x7341492b8354245f542a6dc9c8913663c8575acabe4605b1e2aefab35c461a64,0x5bff9cf301b351c5870758a56f25c2e2abdeea48a408c19f089ed77b07c266e,0x4241ec0a70faabd3f013123d1dc95bf74cf72fbb19f7649aa886b39b18e89c57,0x1aad450240e9bbc682f3fb45af36877316613960441101f198fd1e0a206cc6f2,0xd8ac27475bd98619ca59a72f510db0ee1ce6a54b40b4fb1e97c6d4108816d52,(-0x78b0b4655eb43409d317e764f0e1ca04adc5d19ae92ba0cba5e4c5000a0b1fd2))));
  ((0x70d44826161013e32eef939f09b8535c38c95d1e13b5da623aa0b5bc03050506,0x2741cbbdf0cdd67c13d47d6c6a91e971bcd44dfb1e4fd849dbf45841a1d52ada,(-0x678551550c612b86bc9a1fff01c7ccfacd87de6c32f57692d79de1ebbc445551),0x44d9517cfe33b46de941c5e4d60ca9d249790fb02138178eac68e8eaad4c604e,(-0x83984d6a6bc00d5f149a2c087744824e28713466ce159c04e6e41043678f6482)),None);
  ((0x372954122a05fef57cb2eaee17185832f91a14d0f5ec8ef2fe2a22e6541fd016,0x10bcca34f9b5a72af529b51756011bff26cbc0fdec4bb027e0891a442a933242,(-0x576aa457dd7c8acd6b19e39a10934f6cb6f877b3497daf9e9c6b72bfdcd600d7),(-0x43c3f8165aa6edce88bf13f82fc98409ca275b3ee9f3aa246d44b536fd00a89e),(-0x6fef2d2535bcd79b096a0d579986a25719f4613533c38351c420d69828209a42)),None);
  ((0x2137bffd5fa5cef5b73642ea41b779eb1433ed050d4713fa510f9d5f3bdb0de3,0x2beda1b2f29ab1bf89eed599cb03b6e1b00fab72fb0bb6745ab5f42d9e70e267,(-0x15954897357db3361cb3bc26a2be15355f5168de624fdba6c32147479ef81427),(-0x7ff00afae3fb9a3d52699f8aec9e798ea02f13004ed2c2912ce8e1ae9450143),(-0x2276a39e542c4afaca94bebdf3381f035abc809ea2bec4609a36626d5c33ba53)),Some (true,(0x30dba84f0cd132775194b4a25926320b2b0c5f120204d8e9545d70d764fbb206,0x1bc931a5b331adbfb5516736e78c6ee74639a8379f95208cc44233f1438ab76,0xb6665af293e075e218b62ca095a71faebfe7d5cf036d43db180f99b4c65f732,0x370b3e0be62f47a42224227471906b2b5ff0ea192e11c18f5e6410a138ec2bcf,(-0x339bbdc856b2ea43548556bac4b13aa0484b74e4fb0e6d913852aab44831906a),(-0x192cb2df32f81686d4c4088a667ead2c752e0b0e5c36f1bc24d0b28807e60416))));
  ((0x44987df38f8a506ca81878c40461a23415d958f4f116f1f666a9dfd0617c8290,0x525618acec7d466cf74856a317edd906f8a177cac55b5fed5aa1bbaecbe27d3e,(-0x12a02f10e58532b81fe83596abba06ad66682ca48a345b8546e8a9d3a2004c98),0x3d50c098c0f64cc96e0172e5f9c53b8f4c1bd88d5bf8c86f0d34821da9b972d8,(-0x5ddca5cbcc13248043151e535330b59506545977085b5220d3747d2a9e62ed0c)),None);
  ((0x567c281163625fc06276e3b75fea4870c4f3077ca5ef80dd6fdc51dcbc8afd1f,0x7c9fe8d294d9748be92c38f17e898ccbb2b20612851621ae12c599a70a3c6518,0x1033ce085538ab1e436717a114bf52f591fb7ddbef64a0b2ce35217419bacdbf,(-0x39fa12feda951b8348ec6e406262b60d052019fe5b8a7a0aae66588223fb1cf5),(-0x855866df43a46c1754163d1c9da41caf1f567e5eb161074c27ebeaae87b60b9c)),Some (false,(0x73b891cf6aacfe4dc349b12dee1c922b9b46379cf7a37b7d449d413ada8cf8f4,0x7b6434341cb7cd466a595ed763e9d68138c2511762b27292dfbe83356bcf2b2c,0x54345259eec47d2dc062a8e84dc63ab0ae2fb71c212ca1d76b05431cf084847d,0xed618c8a072c8b9971b1937a7b7d9293c5c8edca68c8bec0525e70d40d6f28,(-0x474e70b149ddb1898df418ee19aefc2a2992117783bacf75617055deab3f3924),(-0x9ab39f1abf000e421f46eeeeb06e7dea17be8e08db8bf26c5d62fee89b8e6652))));
  ((0x4bfc09b54eafae269ba23c38d88917098399f19420521c1d738fa65d66f0d904,0x4419c9f6112fcfc327c7abc3e56ca5a63433fda629d0867952ead1cd3d715c67,0xe5432a13fcdc22699eb60157df7bf9ebd35c81991166af6a4e6acfe0a1bf74d,(-0xb945b64c1b168b4619b69a56efc65cfe849723a775050478b0c0839255431594),(-0x1017ac5a837366ce553f386f33b2d621d27b02c87b8b89819df6bb9297ed4475f)),None);
  ((0x397af7e4941f3e1114556184cc4ae0008d953dc0dd47c4f4e6f22f5956a1cc75,0x535d909fb69460b9a8480c5626305e2e5f5caf994d2602c20072b1a96b2bd5e4,(-0x8dfdfdf1dce0943a705f935eababb5e17ecc014919cc2dac21dd2efdb6c70d4),(-0x2dcd39f48c925a286e44eddf032102abaead297066220b550777e7541483202b),(-0x842ccb694c30e31f12362133c7a4630638bed55699c98c2de8de7dbdbf97acc1)),None);
  ((0x7ae9b9a9f72e8d1d2aa980e8f0031d4ac05637633e69a127b1cc5a56c741ee14,0x6fb8d66d1cf13775124476ef36d41ce14ca267f51157f2cefa3fb9c7b293986d,0x1c7ba109ec89ec7555cc838bf56c632adf6c9c58543c7442defbe7cafcbdca77,(-0xe2dbda8e9202f5b4c733eef6603ef9405665f7fd748cc7588ba5a9b1c419ad8),(-0x8746acfcedddb588106fc9565013be2b3ccd79d4e2890a4cad8b1ee16205dcf7)),Some (true,(0x60051e4ec009063630d4adc5c6f1c217f700f727238a23bb0ede6aa1f0620199,0x34a1ea6c5bb7c5def25d7d83f8aa47811c9e984aa00ed7667db2bbc487bdb6b1,0x6b482ce3d1e8b7360f882e2ebf8d5cd0389dd8d10230652d8542cf4f5eb65409,0x1159f2317c0520aa82017233cc3d3227492ac9bf2f17a2258d301b6b66e891d5,(-0xa3c1eef582d31a387e8752053542e047d816a241d8aeb7abf39db761776600f8),(-0x5723c7722cd2fff7a34f8be4df2d76da08a048a263dec6c5aff0aefcce60fa4))));
  ((0x35c4fdb323d7e4248eb79d49777e83c92d23b826f2e98e5031a23b6d087b6ef4,0x41fe8ce1af6165da3bb0094453fba24e07b75ccba7a17997f7b1ba7b155b0cd0,(-0x3263526114f10e574e6bd4bf1e3ecc9613b1b96f92407e760943994b84889c08),(-0x488ef2c64200e4fc6838d97b26b3cdd080fa0547878e3acbe61e376140ccda3a),(-0x6589108af0b0abb670122ae1bc84af8018cafe0cb9f42fc9a0e3f02fe6ce9e3a)),None);
  ((0x5995676cc7a0c8260403a3ec98d7288bcf5f7a4d5acf447f53d5d2a9d42c80c6,0x23860e3a66be2dc0fbd8c1f41ee2e103276d3b10dd19c26221c5f72b4e4a1208,0xb703009abba810dbe5e8690f7df65b3154d32cc86cba415f88717fe99bcff44,0x160cdcedb457411eb60f1379b0edd06cb740dda417c0762cd0538d141c8ec008,(-0x5757bc1aeb0cb0b115325684d57f0da9001caa677b4718cf2ec0ef04b3d222e0)),Some (true,(0x413f444956f853d03335648cb9aab6921484014a39b712cd574efd1531e409e0,0x6bb6e8b184f1294bc2611301aa68ea4bd20a184a23b3f9c45d793b956a140b68,0x18dcaca53b61de61c2ea8c79d79c9264d520c82d4b800aa81953e05101a0c292,0x2337413424b966785cbc0779f848da986db48b89d41a201801bea2b4809ce03f,(-0x62d6a6ed586d6d84b048a9d3addf99c67690e4df766a202bbaf480c768df99c0),0x3721021d427d3dd84abb47da4317f16edf905839a4b518e3ba4a7b89e282907c)));
  ((0x551f2b301dd81a389059ce3a12490b83d8590267f39125bf376c9103c42ea852,0x583d79475cec36cd4906fc09f81db5c86b78da150637c882ef6e6df458cb5fa1,0x396271c85125cef546ce0c8e5139a03110907a0157d6ff9ccae8c3cffdb949b3,(-0x326eed2d549b99192bdf470d42bd26ce9285ab389a6494f7210ebf9c17591ed6),(-0xb975691647626898c6bcdc9088eb043707b735a1366af0d96f39b01cb38f37e3)),None);
  ((0x7f109f0b2785f910f68f491fcb4cc465684e11b1827c903b875667d13da95e8e,0x9b7e9121de628d4d0b4a08229cec966954ed5a913071825feeea21060889c08,0x4393755492e9253036d2c2da8571aa4ba6b2109594cc81c0a529ef34320ff0b,(-0x6e4d438ed7c89ef702c8f8e1a4bf0d6681736e802b42d0f45305791ad7199060),(-0x75fa4cf122d121158c1b4ca5055449aed829778a5c29c6a861a6e3ab2b0804d9)),Some (true,(0x6a9eb9ab75e3aabd8bd21bfa246ce1e1bb598826469899de07d45d5be9e3df5e,0x42f6a437f88165a3c2803a64148544f81e78564c81a59c0ecb6964ad7bfde2ae,0x9a5bc506840d6ff79371256c22ce2c4dfb4ad12b2f590573bc5833a7f183b15,0x474a44003e0a21e56689e2796c7fda2db7536c2ce6015b2016a30a1114ab803,(-0x9353f4365ff7b2f70f7d256c90f91ab8acd02e8b010320e68afad672d0f82258),0x37ac2b781d0a527d81b99f10304523bb763df6d1bea41f4729f8f1d33f2016c0)));
  ((0x28dea5b653a8874341aed397c2f47f0e9f4e8db796628257f92a4a613a4dec75,0xb5a5f41eb97504950630df1cc279904813319781798c75b73e3269b123d4ef9,(-0x35c773bda5c67bd661cc4fd629a391df34dbe800271b6fcd484ac915c7dc3bd2),(-0x695205fd311285afc576c6a06cb2702738c2af50bea1556b6dfaa487e073352e),(-0x7d935ca875eb83fe545c173ac102c815fbc4292b3ece9b452cb4484a32bf7f70)),None);
  ((0x241fd8625768d336c5b2859ece0269dc744edc4f9be6f2a152b363c938292e77,0x67b74adb92343107a0e770761d62e63d08d730d97f4aaab4d7a507e2d7a4fe9a,(-0xc0ae2ac0b2f4e46c19dd76e80b106edfe7dc2c3ae0a7127476afc250ebc26f6),0x164a7538ca0f476df252fc07e111227ce12212ac46b1938adf0e3769d8dd9c40,(-0x62decc95775143191b1b44ba19b09325e3d0071c423428c10999e62f793774fa)),Some (false,(0x3bdd014718f452f4209c19e01ce853ef790c29e777761c32740c4bd8b8473ab0,0x4b8c93c1892e32b7cc609986d9457d947cb624e55764b819b246aa19a83b4461,0x1d455ac6dfc772349e7d04ca1990c9c58582a73f71f2a75b6cd1e0151405b35f,0x33d3abf695a87b940e72f1c1fd5d63e754738bfbccd7de4f38fc67c74d594513,(-0x31a883cc678529b60fa58a67823f201290b392c0f843b629aaeb616202ef449c),(-0x645eb6d9d0b81b9f42e46a358922303671ee20b8f0f7f480636a386598e9e4f2))));
  ((0x770ed36ad2ef729e9d18ad2e591e65a4dbb314bfd8cf7ab049a4b5369e294e5d,0x32fa706eb6b1faa9fbef15e9cecaef808c5e47e8f11d1ce23b700de6f23fd42b,0x10981cc6ba27382bae1e8c7774640d9852077c1306641bb20b5575c6e0f32396,(-0x13714beeebc4342016bb27392bf941ceb91ef0d0ec823e821999774a5227926d),(-0x5e8561aad9bac2f3c5725459ab3cfc5fed03e99e6a443551709e5c48a9e9253c)),None);
  ((0x76a6458926ca913816782f1a3f424facb74e121de492ac5d7dfa6d72bef3f3c8,0x164090bb3d82cf586cc84760c475d2cb5083082c203fd5f7ab5327e39fa35377,(-0x5a7000fc2acf1389b2ba27ac4487e208c281edd51cd8cbfaa1699e17165da6e3),(-0x25f10f7868737826322c6ec151867232f82db7c0f2f35c83121576b72b2bdc9e),(-0x8db6a2db20f603d33195b8825f7d115ca6e79596a7f621f70b598113f83dd5b9)),Some (true,(0x63cac90776f618122f044b0cbab2eaba4adfdbdb34be41488a509467e30a3b65,0x568fcb9e2a88bf20c1baa6f4adfd2a6e9e376f41b918d853e6749c26936ae65e,0x14a06d3ef5669675a698a000dec3950b34394e4db3b8277f10c7ba2e2994c37f,0x17fb29635d1322418e553b2bf0e09062f747a59003957ab6709835b4eece442f,(-0x98d56bfc7a72ea591fabbb7dc1c92a22ae066f6f385d0947898f48a22a307a12),0x447150f15f9a6ca7bd842dfa934dd9ac9a133bf58cdd6582da15b03a551ade34)));
  ((0x63afc3260d633fedf83ad71541ed8926c75eaa83c7ea70314a9e5f070e88a19b,0x6ce04d15e30fc7c2c0127a5b0ffcf0eebcf3f1f19b1df3f7e9ae26eaa3bf584e,(-0x1343151484d65b4a8fb8a08c5d428347ce10c42737ce106b3da8e50cdce967a7),(-0x7433eff221d569ca5cd4816e9a6461e671c62f8061d8f87fac362917b62d9eb2),(-0x9cd67d9a3e7ce7e2d0dbf4f13f11128b786ae5b952eafcfa3c4a6ccd742fe6c9)),None);
  ((0x3ec578ba3ed413c5d621b5fade20bcbc68fe1b0438c02bfea02009390c2563b2,0x46d1cf2e3ad33763a435b0f2fef03baf50a37637ee89e7c396e6cc2c7e60a37b,0xef937eb47e992df98420372f0c9ac303766bc92a67b7f88a86b9b1c6ea9cfaf,(-0x95972d53905393bc54062be26d8c23412f0b8627d4a22e648f7edfe4dc927734),(-0xc0cdf72b851eddaab071aea2ead82f95b698104f296a0da31007127323e43dbb)),Some (true,(0x66d729896eee90b4b256708d50bbe2ba54e92aca741ff1634b6715b51bf313b8,0x5bbe8edb8f98d5ed8031069799fc0e65d93c3d3bf4475e79ddca1cc775f905d,0x22bae20eff84350524f186c71129ffdabbfadb1a586fe78e156b903fd133b07b,0x644f2dacd90b7caef17a9a8b773b5132d7d24974a0d234b3844e64a0ba6e161,(-0x676bf44e9956f8df2f056bbe0ca00d8ae03112b132d2b5ab81cc4a10a227180a),(-0x24460f093e83c5a00772fc4a2f3d6ca8c46bd9d127e5b6e32fa80f0f012beb64))));
  ((0x46ed181fa9c14c7ad6f26af9d8a6f3840369eab60751da48e07669441e427e88,0x3159da64986c457fdc9a558811e02f916c3c1419e2ec7a77692bb9aa03eea812,(-0x525e91d1cf0c0e71a4e012b143ea0362a15631da5d666aeb58c0de80c6c05fab),0x259ddc40fdb94cc69cf20e5f2927f4fdcbe146e7e70537682a6ff6364d8c2150,(-0x7377dd221a60b1420cc7ee8d09d8a50e45707162951c568ee32812d27227a2c9)),None);
  ((0x708ac5959efa659b950fd201d9d0dd1b0500720050201eaf649138e5414a076c,0x35ce4b8c44cf204403dbdcb41ea0e409dd8d2ae186f7e2fa34325950a3f920a9,(-0x1445ff45ce4220ecf34f3cb7029c46b2e442ab81f9cd0df5432292cdabd8edd2),0x198c321ea989c7ab979abd4f667018d7def5807a1e3370fc51f480c09090f968,(-0x60b0c6a4fff0e421bcd5f2a949686ec884a9cb6deb1a72256b0a384112f78410)),None);
  ((0x4bcb5fe2d71d9b1d24270b76cd89ece9aec968750ad5286dc875bc3cf3533577,0x3628ed54d02e5dfb64d0327c29ed40ab476e047ce4fa7ac02586ccbc75a214db,(-0x4c554d2d90c43e396f7e7a24cfe5785ea88d9320be4168887fe321ce8fd35014),(-0x15edac8fbdfbae5f4f435507cf4709390b6abbf4b725a4ab0225acafd28b7a39),(-0xad822a227bdfe4f734e068afb29c3fce9760017cd3b1741f36f11984137233ba)),None);
  ((0x63f263b8a78463d91d6b36e9dbe4499ffad5687c9e7f0dc45310224b10e4ffbd,0x57522c241c319711600da8563792e34a86220a1f9559bbfdf41b46e0d1610bcc,(-0x15f7022aa2b7c59a05752f8ba8afc71a8bc26e4833a6d8aa501a05b59ea55940),0x9a8269ab728e2e11f14e4e55b296f0a44eacf7e7c54a93c5398d118d3500206,(-0x8445d235e8f8eabd879a9e2b0c4ccad61a81e72ca19dadb844e475a93e53b9fa)),None);
  ((0x15def7d3220773cf17caa0acb3cc1592a0a3b31a9ae0c32119b23f6609f59678,0x13eac586b39d40545275d33b9a1b989c179b72f043312898e49d2671aab0c404,(-0x1278d4814f3a7e1981fbaa16550496d2e69527d9e745afc9db7a66086608140b),(-0x836d1cd25d50032dad0c5b6358310214b9b08b0f833b43bd848259f041590088),(-0x8e1c5fdca1336e5b703d605586db8fddaf06c223dd9f0d23852edbff7dc6f96d)),None);
  ((0x3a7ab5d0456fd731ba66658fbe73219dd5e3049211b65cfa0f95f354b521a9e4,0xf8aa4214d8d1b29eb9b07bba973c12806495b5e821bbbcb3a571fac21c1970d,(-0xa34c7768b61ac352a4bf226fe2d068aada2fffaf362cb77086f1984ea75877),0x169b4daacdf616c2ee47f3058503f017e47758cab0825fe794ca2a6947f6407c,(-0xea72bd47e4febca07320413c9bcbbc4c7c91634adb32f5fe800c0fcb8b11929)),None);
  ((0x75ac8909bf1e224f29732dcda6c64471cfc2c0480a9332a5ab6262f3e4e74293,0x3cce4b3e3043fbf4dc7807940f5911dd415445864106e12c8815af37d8d2995e,(-0x18d495c5cdc065753e80f00dcdec167bd9a079fbf7082cdd7977ea157eb684ed),0x66e69ce8cf8cdec6d063b2bcc4b8ae05ed37f2836fdbdcfdefa1cb32175aea36,(-0x591d596650466b563e210928b595e5252fe3c772806411287525863d7f93e37d)),Some (false,(0x6952a974608d177fc8f5f3d942c430bf0faa89d6987b88db8e179a51379e0e6c,0x14d095f1bc87afb8f11379e4cb0b560c174344bdc6f5d81364890fdafbe6c993,0x37e687156182fe9d609a45b58231998a05c1f3583adf934d0a0493ce5c7c0e1f,0x1005c4e08b1b55cadd2e3fa21319651c3e761e33aabb6291da5eb7ef5a91e80a,(-0x177a08604bcca79a60e42a1e1d660723ee304f7b520af36fd2d9699880a473b0),(-0x607641aa170a72509bae442d6e24b81e6cf9e950675256d972d597d45f4d40cd))));
  ((0x7487802e30ac2b30020f70a04150ebd6d5da18997e7841b2efeb3ff1ed6cba91,0x74430345ab7d848361a1ae5dd131cce5b499237b4eaaa8d6f20c24ef666f0ab3,(-0x534750a15fa334bdcde8452661399d50c8d8bbfdbbc0ec88e8f13c46de0073ac),(-0x133176f409af3963937b5a5c5510144d92501f171315f4904eba30b0ff1c9d4f),(-0x69131d7e9b90f07a1e746db2789c623393c7fe7d3330fc5ec1e3ae5961118d0a)),None);
  ((0x5e917a9fdede4806681bc041b0e45569bcf7251e5c74e8139d2dcd9c6596af2,0x45fc91eba1ba3fe32cfe20527b179a7a994ea367f8faa02dd1ff4b68a17bbb59,(-0x7c8ec0e62ab9eafbd74aa2b76584f8e7403d18f5d02777c2caa4e7e409d724),(-0xd2b67048216fe657c5a5f7bcb555f0819995ec2047bba6eae57fbf13e62c5746),(-0xdf3632915589c405c949f33824b032b75f33e04edbd2b5a8dce2eaaef42ae364)),None);
  ((0x3b8aea1b5309dd6eb30d30bf3596a4578ee6a37dd4a42fd4c7f0fdbc844dbc95,0x3c0c9a72fd4f9b40deb5f19f42318bb32d39b9bc09992c4c455c5fd67ed2bafe,0x25fe615fcd6c21792e7702f6f94cf8fb5b6ad57189e74779aba3d326d593198c,0x877880095bc08510289d66e70817032bf6fe8979a2f2a1b79285419f7295f85,(-0x3598cbc92a4f71179910c7ad22686af24e8b9afd57115a12e4c463ee315c8113)),Some (false,(0xd47f14c8c132ef07b48fa44bf77800c9a711992cfdcf161d5b75fe915911ae5,0x6b51fc6e8c2bf539b9c06d3f057263f1ee1ccaa6ddeae7f4fb3236f74bc26441,0x1beefa9b60b363a55d0bd2f08987e7bfafb123335f11cb6ea59d12872f9da44a,0x2664f52f38faed3f61cb72d2dbed563a32757a13d7320293bfcb95dcd02125ea,(-0x331f39c7e190bdb4645cbb25d5bee7a448cee12671275df49157ceb5b5b5b07d),(-0xa20e621eb95a290aaff7b898e710bd23ac282aee91f5fb13a4dcec10e376d2bb))));
  ((0x432a126d4d4634439e01606c5667acbcb3ef0fd1d966149e325d9e30bc542ca4,0x22bc7a01c7367c8d225e31a32809a7f9b2e1c2dae1b580960039e0cb6d2a2934,0x589a81193bd4d4f56196ed28922744413adb455eef7e935b06976aa70b2ada9e,0x12dbbb0df2af1fd92660323ee741215b7283e4e59a874e3fca7136f29bb818b6,(-0x70a179b8429ef7b10317788d10a0e089a16d04638b352cc0535a36ee716af502)),None);
  ((0x2b5fb5ddd21b1cae59e1ff994944c1a4fe17256aa02c974d58b053e07647a145,0x79d648e277e566c254f8442a869ec17b8071e46c526184439cb0c8ebd5c615f7,(-0x19d0e2c6bbedc9db958a4993cca302cdc2af9d9720b0127a6456483159dea964),(-0x1d1c3d27c8fa3706c6eccd7c5e979eb67b0ad95ac3fcea32e744b0445b70f7ac),(-0x414bf6a7aea21558eda9f378fbcf6f7785aae6b924f2ae0bd30eb9622fe96c36)),Some (false,(0x59c6f017317b5c92d911e80a50c3f0679abf6012f8bdc7242d69d29945022f7d,0x14201c0944159fce224285741be9b0f830e9cfc954e11de9e17bfa06d5d6b75e,0x294916a253637f68b36d108ab312b58c1355b3d64fb2f3b1811a5979a0e54aa6,0x3362b53448dfd5fb5f3021f59691f2cc0662ae26b82e0a3f61f988d73b79fcef,(-0x3093b147aa6567476d57ae3534fc8ea3f390d7c59aefdcb9634bf17c2d23ac64),(-0x70cf33e3707df146302033eeb21af0442de37f975c6ac5ece2f01aef4769a6d2))));
  ((0x7ba8934af60249eeb75675e7d9da7c5f80a0f5e7499478c280b95a963312a253,0x5b83cd21bd6ba4246912982b0d982afabf3ddb847c69561631d159acf841da8a,(-0x3bcdca3fdadac4ef93d7c23ed21d2e44e795fd585f1a3103805a673e6727fe46),0x1d6fe9fdcf0b58dc6ca8d95126a2f9bbcc7c3fa001d101dce497d03bcd68d7b,(-0x5863104eff88f4da7273c856d84b752c791369c4247fd740995db8a70bcbecbf)),None);
  ((0x6cee12f7db88c47df206528d7d756d6a57d3c080f228da43fcc4eddff37121d,0x79457595d3eb114cff1b5c55ac445b0352f1877107f1393e06c27c30b6f02cf,(-0x3608e9b43beda3b31abf01e282d63cd87b5bdec2102a4a17406a276aec21f032),(-0xab75949733f89b068f8c74edc134c726510d356d4d415c6f828cbf169219a777),(-0xbedd166b518b245a488aded6a00a5f2af3656fddf3dbcdd210e931ed7b82caa2)),Some (true,(0x3d38b1c0c66f51874e7fd89fe5a9c1fcfc236680c0afbf9d461a20404ca6d81f,0x6a557a5fecdb3472a824ed6bbd1c8e73e159e6a2b59fe9f805a5039a1b808746,0x67342a55a5f4c3be17688d307125d2d3e37394720fbe0e9efad5854896bd90,0x16018b8de8541363ebc69c95a0ba1172c06e100ed22e699fc54de940b2323dcf,(-0x335c46aa13e491de8b6a84351bafb80bf1263a291b08d95d8d2e45b6ce4f5922),0x4ee57f3d52a878a2631c2cb004f3d3120b4bec37f8030479ea701b4e0d8dd5fe)));
  ((0x93fbbfa99f64dc86cb4205e79c0b3efbd7144cc369d8b740c298bb94120e7df,0x7db56a89ccd1a70bd28f0aaa384b91ee26baa9321128324b4a66dc432a15822c,0x3b0da93ba008c3280a249364dea908df0b614241454cd1421c48d0689daadad4,(-0x62d87b0463e7669ba1802ad4face9284714d882d495d41c49f7b34495b3e035f),(-0x9ca65420d97a8c0fc9a64004b9ae9b3907d82f18be3d00b952a52b83d3b13745)),None);
  ((0x249381815e4b1cba475fda1c544f5845a8f4115a73a124eac6c0f319a926fe59,0x3a03adcf9dacfab38be8536b09881ca3170c9220b3469476b55c08c6a289b5f1,0x7aca3f096e0734e1eab72cf9ed25b9d92d3b675c432f2c0ced05459f052a8577,0x11653bbb8a6ba57681b052a3f5bcb840a055c7435b09b7553efbbe442e676ecc,(-0xb48861b51678dcd05b33aee5e549b744b6090550136609af9e4e198640f87bbf)),None);
  ((0x6ae7e7952c5dce7537db7571a53051740dfaf89d4da25b4201912dc9278615de,0x16f2d16d2759ca1e6937a253c1d101dbc89ef93eeb2b638a5ebe74337add37b4,0xfd7b2ca7b6e94c84bd2d5b64c7135bd8e13336c1c2bf8d2c30fa78384593b7f,0x17c88a0797275a2b6c17690b04e4aaaf43f4ccda5757f82d4a309850ca6da1e4,(-0x30f7ef8cc955a5f6f39114159bda62a75e2879eaba2c753d61afa1b5a6675246)),Some (false,(0x442e2f62615a0c22c0e7d0330454971deaf757631f1df5f41c0e9b0813e2fc57,0x636d0a672bbb798c049b8db554b83b31b9acfa188b44ca6a60fb975eb3be8751,0x132aa9294c226eed47245a6c841079ca0303884680f03ac6aa2cc840fb46ba86,0x32758df76620a386e825893a81df35d36319675d253cdc253dd9e2e7a50dbef7,(-0x4c3f43b5faed36223aa77c01b82c54a57ad29f67f1e91df3c032d81a5f91867e),(-0x44873aa7ff13a533e64f1dc642e8e49c128d05445173428beea1c0e798e9caa8))));
  ((0x40a282a7b2c6d5a504dcb3b73b4f52a172170efac67558854db5cb9d65235d16,0x54f62c56e6b515929537cccaf3ff8404f41c29b7e3d8a2c9318b2fb90b9651b0,0x28e9e5f8a884bc94327735fe0478883095e0d5fd7e88176d1beca759cfd80c7d,(-0x62b97c86e7967c7e215f1a54e1bc3c3b5c9e54b7865b625cd391daefc39b3c64),(-0x7b019d15f21637756e332c0bee04036028d7e8d81548626a44bda78ced6466ea)),None);
  ((0x6ebdecbbe51d0aefbecb59de5f5cc3863b4544005ea3d756b4d11f4dd2914bd7,0x34418d57da796627a30c5ebcc6b0df06882d3c283bf7796e9bc4e263a0fea402,0x17c1a2a99b8f922c48346ea1c9ddc0ec44223b937e01c391416ffc63d8d2d938,(-0x34c7a62526ee312b7c41be14701f9d7d6df1eb41d81d07f583a9dd3308b3bf34),(-0x689d9a1748268305c5b116510262e88068109b218372701a0b49640eab25e408)),Some (true,(0x3926bf21cba647fde8367602f0ff38c251405dd90cf2172dc4bf877511294a43,0x74df064c09cac0feaccd1f1a52e21605469caa26ce0bfa95367df75b52399425,0x2d35dee7c56086641a737e09881a30478aec04acca605bd03951c25910f4fd9d,0x42778ddf341d375bc96da554b8df5a4aff3f69e0c831dba97739e35c1a0cf4b,(-0x4f9bcd48324d07e09e2ea5d2ca5b1d0930c95276be9d416a885e03470086e3f0),(-0x3610f074346f086c2a0b322279da22bd2c3eb241b40f1612c41686f3895e11c))));
  ((0x69636b156dfb45574cefce501c97412f1bd9a32637fe427c32aeeb0900cc4666,0x325b718ee3a989dc2143836aaf2aaac8045df1be322e4c7ab29aaec1ff03c3c1,0x5131320d102902d34e07304b674983efb41054d28305160de30d3aa4fc66af2f,(-0x21e7e761782aed12190b5a96b6548bdab6db89391e5147e2e709a9ae63779770),(-0xa5e5112323f5b0a428069e50170ff5452619507a7f59e353bfacfb7410233681)),None);
  ((0x56ac2f28cb88eb654ee053238535e1811813791d23d0c7481ff2e86f8af419d9,0x76200ea57cc69ae334d8625b0d22d96f140dd73f2f986350b2365b753a759060,(-0x42f5b6dba96523aafeaa3ab8eb502f1bdda8bf25e72727a66d20e773b19658b5),(-0x2dc3b9719edf121d600a5c84766b1dff9d0eeb027836b29b306aec2eef5d5e06),(-0x9d39a1f1164d2aa5b726f2f55e0aad64871d4c9a3d502ec542fb35263fc0cc99)),None);
  ((0x25fb7eb9993f0be9b5ef8641dd843f65354f8a61d26f2b12f016266929b12f31,0x490fe8962f6ebfa75dfd14b3baf430e1ae9d51b73450086c69feb60e22ce937,0x3252dc0ad1f69b5e2e3c9a2c4fc57057de909d0a350078ca0afd456aa63353e5,(-0x7d7c006c3c1b98a5fead0ee1656a2ee3a28b3aee8dc56361b15890da14ef1c1a),(-0xabd8daa9706fd157382f3b0f6df4b05a8730e874161a07ca03b66e231d60e7f9)),Some (false,(0x929f162dcf05bd2839aba720511f9582695f78c733ddcc18cce68fad2a80665,0x64128e9f5f6c29a46b1a1ade069e07b46e9c078d4468f85d32e28540559f6f0,0x15ae26c319a206f8898070f6aaef84b4d6fd2f504cafec535f08008be26d08b,0x201a4db61b4d6fb876c9e8d35fcf7bfb1d8c4aad6152ec3d7ceb7e904d00aa6,(-0x1c73ae5825f71aa3e359814398bb564bdd652a4b237f4e7f3c260da33c9822ab),(-0xfb3719ec79cb9b9fa930eaf6c604c4dcfab200b1d7c4087cd05ce74070eddda))));
  ((0x18f66433715df6c5169f7d9f85ab6f8fea2f35af42a20417a3ad674eea062de8,0x55517c0bb6163ef58175f146271885be0911b1e9e7cdbfdc71857613c9fadadf,(-0x59b6aec7dd14ffb0998c2b3b9976f48be234d294067769bc8e6948c3b1a55c),0x141167993be4897d78fe7da7c12400d52466474994672649a2f4ff1e54cb9938,(-0x489cb946f0551f85d750003104647c76a8e80dbdd536182845a102aaa8e44b08)),None);
  ((0x17302fa32d80e2df1730184cd0c5b7cb5ffcdf80a05b3300d9e161039742738a,0x195cb50aa8d4c61809735976d5b9441533512f7adc1948c59c1939ff4a5b788a,0x34002cc2462f3e1d2c96b868df365aac9dd514153f380e2e3f74f8d25c742d22,(-0x13720d71db67c85cfcf92b92d64eaf6ed03ca974e18dd9669dbfe8541d9272d2),(-0x4cdd9c22d24fcc8c53ed1feaf290d500acfe88f7552473021648e733d8ccc69f)),Some (true,(0x16c4caaffd215bdedfb2243cecee12a353eff2b64a1bbe9e558693b6b2757505,0x57d1b65ed43756b07762d5ecc68aa569d793c0bcc2b30a2a34f6925ab3a90e42,0x49834bc2de22242682d689a0f356b8a70d01e9b6813c929f5b5309a4f5daa18,0x2654ef9292d66d8f32d91d0f2b5428e8802254bf434e91b707339e5547a9f0ec,(-0x18a3e9a64d40f51d82055ff0de82da6c8e34e87fe2bbcef8e564c81ab681b9f7),0x22c8ebaab55c98e976ce807bff4bf0bbe19f9b3d721a36183679fd2442ce79f6)));
  ((0x5c06c7e88d0b85a578c4af131e5a384ae2afb95989cd94a16ddbed32aff746da,0x4bf6905e70d4136517cc308490826686feb00b26fb0509a2436f6799f33b6463,0x38339744ff0f19a60cfde9fd9fc9a41cdd35e373848d50eb9fab1b108a690aa7,0x10a40e02e05f08bd6268ecd4bc0c3f4b74104d538c05ea0d5108b620e0c1a03c,(-0x67d3be6ba9ec577aa344a49367addebc0aa899f7458c83735e51709b28101683)),None);
  ((0x298018a61f967b6ff22127beaea95b04642d09c240c3302757a56d697dc528a9,0x12a64c93fbc71bb71dbbd637d8b4a5c2570fc3c00c91628797390688255c428,(-0x1514f39806b58cd1d2d137e1ed69200b6554c1e7dafa1a33a7c33ab97de98fbb),(-0x44f9a7becfe4ff6d69cb1471a250eeb8ccdb3199c64ef8ace32642a3d181c418),(-0x705ff911738eaeb8cd790c465ca97153f2347636332c7bf2ec91bb857ae74d91)),Some (false,(0x7ea9dd8c6eec859f500b5a73dfdeaa73e360b4487e59d1eb78b60c3a2cf3936d,0x750f204980a75d94747bdd36a8e715dfe5a2867cda5c80b4833c4d1eceed552e,0x60bee6b5d42d085eb874d445bea0934a78d8d899be585af5195b10c57bcaf0,0x1fad11b1d0ad6309d0d63706e614e97e176801896132f06c30f19c613a650803,0x5657fb6a928dbe9a7a836e10a5fcca91e50abcfd7a9156333ca3129b03965ad2,(-0x7a868e50b23a1208ee60520e32dd51ea00bd09eda1e6dad1cf08f740b18b92e2))));
  ((0x66f242c7b5371371f0b7a8c2d55cbb84e7cc3914e7009c4a28419f9d2524efe5,0x162c584f9c65ed317ea6449da312cba2655901d568d484b005671033d587b6da,(-0x1249a4c9081d0fe7fe7614aa72344803428518a5733db7dc41e7de960d736ba7),(-0xdf3b999526eb064622494be81f670d2384bdd418489e8b6e140df7653c0ce656),(-0xea366271c1cbae925808a9f8dde56d9e2b9e05f3ce01f32a110436f455b1aca9)),None);
  ((0x4a77ee4a439242155b3fb380e6eea18191f03808aa1c35e5085938a641ec0a8f,0x52889d2e49c717360559c0513c6d41828180324413ab90487e40eac43f7b0a38,(-0x4ef4973a9d5ff18a59b8e82e7d2433d4a0f6b5ef98500319f0d321ccefb9c4db),(-0x2266a0ca16a62b7d9d6d7d0e5546ce32f4890411067c4c61c9df71d8f52ea0e6),(-0x580a43f7fa4c9a80dbc961b152dc0c171925fd011869b3017eea1d21eb7cd191)),Some (false,(0x369f39610f82a97c7bbe8cf156e3f3147f48979f0ca99869cf2bc6ea7ff12380,0x24748573f0a8b771f8e33e5cc51d5a1e159f041d424a537f97e733e500941265,0x30044f86ca7e71295f48f167ad8b6df84f68fdf5617b6f6d5ad40d60cad68ca2,0x1002b46f3a0666dec8a45e156e42a8dfac890d70038f2329f12caecffae80fbf,(-0x32651272da8a3451738f346a179d65d445ee2a087de79a2a6201ca2409d41c38),(-0x69f847ad116a66451c2d32852c7a29d70abb0ee4927b6e74dae51a5a61bca182))));
  ((0x51c2f14c9fcf503730948bf6ebcba5289e90eee1a463896118f0d722052c3f6d,0x171edf5a09ae5fde88f13d1925aaeaa45cb12f483af998ac57c3ffeed67823f3,(-0xced2956e74b10e8911a2106b9238ec202fba742cb250ac792d9637ee5662c9a),(-0x19e2f5ac0c6419170e6e425c0c19248d292522f16d3a2652c8e374893a3c7e15),(-0x232b73b98a1249aaf54842c8a6108f424b154dd094c82df1ddde1bb54ec70014)),None);
  ((0x2db10d6d1540f59c652a6c10f481e4b27b36f3583db43d1a417f0ea21075ef30,0x721ff6c8df778ae40bddba68decf84cc78297c166e4aa7c1798d1a190070de7a,(-0x300cc2939dfe58561b0826c98e4b127da91adcd29d6c1314d953f12d96991070),0xe314b4ff18f415aedb49b2578b38d0b49121d11135795a823c3c6f26b24781a,(-0xa5a07738ced2b20701e4d3231ba0cd83b1e49eb369d951b6e839e46de70346b6)),Some (true,(0x75a250fe0aec43f6f720215b9a271b37fa8a5b909163f3bce861283931f3705d,0x7e29da0cba4a6893fd5e48b4a06bfadac037aacf1947bc7977d48ab2cbe3a224,0x28bd18ee6190c157a4097036d91142b39dda61ba130d8521e1e847d0e7382265,0x219d7c4cd8e33ccda1f77de4cbf4d4b9f7d53d04538e29dad2897b760e38aa01,(-0x469a994f42aad4c8bde0ee236c5897cbd5b4d1717a3df38fc595d249a884e90a),(-0xae78ee0e3aec0dab0267bfe8b1fd28a50d585666116d8c8842fd75bd85621d0))));
  ((0x2e8f8b4a7db61db9cf102284718c46325df751b0dfaab3fca2d1296879e9c07,0x539f3b2905c543ed18af1cbaf61313914f0685e3043135e06ddc736220de2711,0x103ee912901a19399672b76c0181169ac63de2555d94317add99e35566631ec5,(-0xe74da7ed34b8fbe57a6b7ee4643ae924863d09b0af9c9dad22f08d6d1c06a696),(-0xf96429bab11342ea06eafa61071340edd85e497e993fc9847da66d329f2f5f51)),None);
  ((0xfc6567077efc9553eaaf93142c43cc9a948e4caa5393504b4ff951877317adb,0x6d6cc717829408e1c22d1c39d276cd7d4e72859d9af02c2c96e821a7c433cc26,0x369057013161a8e720f685623fd18bfb98c48f2f8d4b6f000c955c321628a974,(-0x3c702f5fd0436536aac00c434e0a23a4ad3200debe24289cef957186d397892),(-0x36de5ae8bcc08e0e5adea0f12dca71f24deacb5ab4080f11298a8b0f59365946)),None);
  ((0x2c302ca49aebab2742742a649fa55bb54fffbe3fd57547f7c0e3fbef57cca786,0x6bd243669ae05ffbbd7d93670f3179a72c8cd96b5d6275b8930149c7461514fa,0x5b99efef354cd241d4bc960bc775290f07759aafcf11f8159d30e7ac72ef54a4,0x570e533f5260f02d747e23b80a29226dfb6e3ed1f7960f908a255968c13469e,(-0xae939eb365be65b9deeff85ac43ae654666ffe374a3e9b689f069d82b5ee9e5b)),Some (true,(0x4ed6c2cba2b42b67a03ade50c551ce59f1b53bfddd02ca8c156e33d4a0141e83,0x7f822f1a849c0585e0a5478469d66d333fa0d9dafdca03c41782c6c42cdb518c,0x2538db9f7ac8532140cfea0a6de45f35a1cc59038c22620486d65a61f4e5238d,0x123af348a874d3470e7593be5395992ebff22e4ad7c17e5c186bb80c1447df57,(-0x2fb64bd0aaa2a99ffa05157f1ece62239a597ada517d4f2cce4384c9081a9f8c),(-0x93656c9a6d0ce93287d59289bc7d1ecb65e605384aabf0a4792f29f71743bec))));
  ((0x2cf3886f6a491a82908fb5c7f1f70ca17af6b3c3693c68a7983ca594a46807f1,0x7736f811343ba794b09358937c0c4f248f81ad982f5794827b8708cd4529060e,0x4e75b423aeb24e416ae708ed559f2883526752b81d3345ee194d4cd963189039,(-0x8a8cca018c2a619c0099b3299c67e3cc420c49d1ee6aea39b15cc7b253367d7e),(-0xe0b384021ee9d4fe94cdde8daaac10a3572b5d3dc3ce3efe5d178bd1fc31c75d)),None);
  ((0x6f14406fe8b1e547c8f1c25311160d24b3626b6c500fd9bcc56fee9ac0cabc64,0x3f89a9583eddb8c4144ef006276d0c72854e705bf853ed8397789b9cfcf0155c,0x5f3f0fb5fadeb80489cfdec8b6828e1fe103a46fd1b77debe3cded69e13bf3cd,0x7d094ddf765c22285ed1c01f04f31d5bcfb26b84ee8f5aca66c27f03d1ea57c,(-0xb32f0a222d5d827e10d776a77fec8dd7820431274f76ad3ec837f1190e2428b9)),Some (false,(0x724ea8bbff62206c1ccfe535fc6af2887c4722b36e58c9624f32a94607fb3653,0x6aa88d140059b0a9c18d3707edd3e645227cdc3abc1e19a04479c9bdd91c9854,0x37236e595ddce3f051f39bd4f5e5fb839ca7fff01f457f8208966dc66b0c5bff,0x110e000cbe93998716ab6a3eb310c43c811aadb71f2181806092cb1fb11c729f,(-0x31ca8b882e6d8bf3f37b3b7e1abb577baae6602ee5d6add859fafdd32c85f2ca),(-0x83c1d09a5bbf63f0d965881a313c13ffa3ec2995c67b9489691b8e8719fc98a8))));
  ((0x13207bbcc88a17aaf51f1e6e1af6e237bc2af0b809c30e0f56d3816abf48065b,0x150883b2757de888e3e1b01421da4092c4f1db4f9d7b29efe241fcf31b6ffd87,(-0xd34454951e10fe94105d1700d1da62c6917e167825aef0f0a73990a20662c9e),(-0xad5380b98fcd21e0d89e0a36183dfc9e837b486461508e9a47e123a09150affd),(-0xd1d646f03a38b5849b0ec48cd0b9897b8ad3c5758e7055624ea726c6c03ba63e)),None);
  ((0x472f3e7aa658b85d43d710ecddc9f2c80c2d976ff2f516c512e69ccce0429859,0x5cef714e79179fdfffd20e06800d48970b975a901240fb775aaeb0030f812bc,0x991ecd2ad1156c9a50214b642b58709e8a9e046c0efe1ffd7d387e80651046,0x2bd0b9db2615f4f45f9f7df01fdd7902179776becfa5fb4cd5d43e66a056ad80,(-0xa6707ffe6302a518d242bd06b36dcfceb289dae75c9425421da26d3bbb9cbd2)),None);
  ((0x676f284d823c4a1e4eb2c4577ddc8cb5779a87002e79859aa795aa29827d382f,0x25a26a77c833080ecb1f79b4880c0d52490d866e00bbad1992f47d459c9b76fc,(-0x275300cd46c87172cae2b1996bff2fadcc637a79e02f46344ec5468b897ae236),0x1c7e2f426828b196c9aeda5ef06b9cc0e4f3fc6467cc88b8a151e86e77d47aa7,(-0x3491b43d913b3a9e76d692b62bce602d2e0fc60d7309a0674e406e09f7be5349)),None);
  ((0x2363c357cd6f1784d721e10daca6b985cadb393a7c55a5034b2459a7a6ffe007,0x3ce34d4e7b50d836726b8b535a6336f56169b9ed252b1b6cfd27e45066dc8088,(-0x488491c1993872ad465b7f26108165c1f0f5f2fc2aeee8d489645cad9afda875),(-0x1f3a5033526d0c3370c66564a9bc6fdd2695cdf3ee655152290bde174b685568),(-0x919138564152fa4e22735f599a45878c61905f6f14dbdee5aace355a9c33ce05)),None);
  ((0x4dfe52eab98fde86f16f9ea14297036db790a37d2b2ad94cc6658fe4e060f896,0x6ba4bc28812ce71dd938c20e036722871e5ed9af94092dd71dfc7befe764e769,0x132dcf889a617f0fe252ff61e51b7e7a7ef9581709b7a0ebb2681e84be2112f4,(-0x14c708d0163b29d6258c58eb6083c3d3a1b58458dbf295cb84aac3393ef88b76),(-0x388a512ff96088bcba2e9a1098135e5614570069fb1511d4e30a9150267e8d0a)),Some (true,(0x672c47a61797e935586c2bbc86ad8a4685342712998af340572e0a6a5892359e,0x2fc18e8822d89241a9e0a8ce1ca0cfff5d55343aa8dd2d0ed4cab6deb7c2214c,0x4196f9d0abd45a0f6fd54c41d0e21fd27db3fb15d868ff1dba834aaf463990f0,0x13f59139f6cbebf4e29718568706d730d75e09c446e1c7b7aeda233cba272013,(-0x4a0f97f5c8ea243df4712ae90d82d096cabdffc204b965e81b0cec39b45ccbfe),(-0x2f59e429237da974298cc2f55bad743236369337a68f86cc7d0a6b070526de54))));
  ((0x4fce5bb227bd1931b6a6769e65651897f196447542b4c741d7295ef834c00267,0x7e9f6014171f5fc8208911459dbe782ac61f9b5fbd198cb59bd0af29f488f28,(-0x415809444d6d0ed80b15ff46dc7b32ff12131992a771070fbf42d0439ddb628c),(-0x2791b25424ba7aa5d0fd1abbcdd7201c536341f89e5fb7abec8b3fa8a4be5018),(-0x68b07d1c70fe6482b2a5c79e49e670d934fdad9b116387642ac248dc0a94e794)),None);
  ((0x4500c46668082ee2cc84a7a8790f78eb86c2ade91f4052fe6ae39a5bd373789a,0x556864f51cfb08b509a0c71a2ba0974e41d7887296374233aa169879fe1c54cc,(-0x3144c353b7a60edd8d4d90ccbd600cfd3b16bf120438a7f6da6a6c3dc25c2df5),0x33aa142ae30de876e57e805c64d9661d33902a07df038460cd293bc5531ab250,(-0x7e68a71e498f7a8c0a30e4039d5074c1a4fd97d4fcf910c4be07ae2b399a8edd)),Some (true,(0x4380b746c20a99125f8362d3fa3d5c9f4c9d7e86640c32a7d973ed2f01a46b28,0x719a9003e52d3993e3496425766f752150476c80ecc32e1c09c0baebda82f7d3,0x2e0ac97850d1623b647fd4b85e7c40c6f8e391ac75cfb2a0c3c7ed7fd2f858db,0x3559e35d2377c40ebe3481224a6c3cecb339da7cfffe496e0512d6ba40e57cea,(-0x61b6e2d6b0dc68df2ea3fff868d34055c56e72bf617f1e7bdea197be74cb4060),0x3abfd86516760dd19fb7e71eb69cca50698a9d4d38b00aaaa8a9b5abcbd42c61)));
  ((0x655591b5d298b9a74f6e84f7c6a06d55024bc4abf8ac2fbc9fa31e16a4f9d409,0x5819b94a245e4dbbe99b9519a10aa0507ceb6652eb0b2f4233a02fb4d7478e3d,0x413a5f9c64f86adab2fb296e9b8180540b3b8d69eae02afdaa27a86cd0363c77,(-0x7648c482cdc1a5b50c670b147d851507b5803e8717496598ed1a13dc56148b4a),(-0x89c302aae3fa174781003b19a33f2167fd3fa848ec4960ed65628ce130a277e9)),None);
  ((0xa87a1be6eb2573ac6ecd5c9ff0877682a19a92ae140962e8906f3b12a3bf3e9,0x4cce80fe32a5dc424dadda1512e1c8e568c3aa178ac781183e139eb9635b8063,(-0x1395df35bc834f7023ea4da03eb0626944bbe77a47f884a5e4f6926c08b29d50),(-0x820061e2de43043dae6e859e1b5b4fe99d861a2851b4376e2e9f0d13ee407c8a),(-0xd2199e5be6feb930d64f4908d015320d0360c3515cc9d331ff8feb3829776b1c)),None);
  ((0x6f81decd2d1c7a4e793dead29c42f4761fc121c8e364ea6fdf9a2afcb6523e8e,0x72dc916c6a909ec64fccc76b3cd948483371da42a5ed56587e22bffcbfb703a4,0x2d38c557d4f6d1edaccab9c15f5c415a63803a201ede7cb3cd6abd0037a210f5,0x2a380dc6b0250524c949efd33021e4a15f52bb9dd55564a691e43224f730371c,(-0x6775ce4af8223b246b93323647de8d829af7b6d16638131ba981ee63635f4a86)),Some (true,(0x3fc42d1dc578fb470be8333c0a0c28c174578958cc0612be1e723a2955f001fa,0x1594a187c1f55ebe2760df470d49b1201a51badddc729d8560c7720ab121c870,0x640fd0553da0d9060f0c69b82deb84c8d0bc4bc6d33dabdc17803d4d0c44400d,0x23246f52f20d50e395886c8dccdc86238e90b7d7928d6668ab7e0aa388f38ac6,(-0x428adfff0ede07aa29c687222c488821512deb1411bfdd0108c08bfce6298262),(-0x3c4e79c697fef6847dd37d21b362e7028bb301f9b12e3639565b40de0d002174))));
  ((0x52ebcce638e343d8c62d073aeb28fd127cb4015ce583df5c0428850d13854ed5,0x5827e6a85b700fcabe143bd3367151996257355e3ef9bbc51c23a04007c7aaf,(-0x1c20d77ca809b1362efadc67a2a6228550ad64b8d1d8fbede26ecb0b35b1b9f4),0x103dcff3f13f5167e111613187fda6b4b4381a67d815d09932665f79cb3a0c00,(-0x25e9be975167c66c2cc67bc1a49910b2a88c93fdff05ba6afe2b0bebbf00ef5e)),None);
  ((0x328311710f4fb7e4374e61af0f01b4113f06478707a376344865f40d0e358428,0x36017a5ecfff82eb0417cb5812ea6be1b9938bfa3cbd527aea3bb5319c91a089,(-0x357b1a01068f8d1fc4c374c3c647c36d9529c0a092f15760f29fbc6fd5962c34),0x204fbdcf2852a1af109bc4075dc63021bffc625fbfaaa8a88b266926512a5c12,(-0x60224e6bcbeeb15a8b63a9c75bfcfe0660c990913f5391a95e1eb40f634e7d04)),Some (false,(0x228186ee051ff14e229513ae97e899bbbe33c3eeba62e25aa187da793bf7bc63,0x39af13cdc3e32d11a6c4f51df741f5696a1d8a54d741c6d47db65297ecd0e730,0x154fe0ac2c4d1cce62e3d1cbb79b3cd7bbf6620b63cb8cfbeaa69fc5c07570ff,0x1e5cda200a2fc7f7cd18dc9bff1bdb2618b774cd84c0e7419f60acc8010438ab,(-0x2f4e85992ffe712e86151d48655e3db1d6ab21b97f4d8bb3a16c6f1aab4ff4a8),(-0x446cd3f1bf9566a3e14561bd561ff1ec8fe4a6dcd43d9eaee1f4edcde6abd188))));
  ((0x126ff0067107bd59d0bda2d954adcfb19be1ca45d169f90f3b24b0dffce5b635,0x1fdc65578c8cfef58cd7f54fc29250b0fe8c16eb55f575e4486fb632f956bb80,0x10b18a5a7372f457318a66b15cbd97ee98914d1033d7041c2ff9ef04411d8585,(-0x1c1797d0e9246b6ef1c9630f6d26340d5ad1f5f3922fa7c1425ae8cf7a34cb1a),(-0x287f14c951ae1eaf854f6cabce2b711f87d48bbe16ab5588b1d40851e1904f4d)),None);
  ((0x56cef4beeb3de11659875735371548b600de8b9731d9e43dcaa87506596b7b3e,0x58946677980578b96c24485081813dc5717a301b171f0e2a1ddb736d45e09dd0,0x5465f2d383576fddb9249965a80c70f63f9d42253af6ce6fc6d6643f4eaeb42,0x1dcc19358a71666569ee5b2f24ae8f588c639bffd9dd9d16ad5069093ba8163e,(-0x325b8090ed0071a302eee9f826c9a7f42b1a588b9926a92c0afea345e02c016d)),Some (false,(0x6702f32f39888210a4f3ea3e7106a9f120497864c6f5d0fa9ab6246c675411e3,0xdac231fdc87c98b65bb2bf068df003f43100ae917457f9d323654be9ca3053f,0x3c12ed0c4503afd7af004080c7633f23d8574bfc4165a0475933d05f630b28cc,0x33b8e9c4bf6c11b548911b2fbec9c23f089083c4b8468eeb693745f827deefc6,(-0x55958d1f5b674ce1e21425086a36f57a874bd842c6128baefba36dd8ddd8bd83),(-0x5e7321c204fc20d7726bd23a5f8bbd5351626d68ba17f2350ab640a7b8f5bb57))));
  ((0x7e62c01adda07f2624af351e675f20702e7ac727341700d08cd6fae052acfa29,0x69bd849b7115f547141ad8143e87dc0bf393511dd8deb38f9fc77af8895dc1b,(-0x5170e0d08007270efab3f498afa2aa8c1f97090d7cd0f77d1d08425c6bbadb65),0x4e0397b715c284777e2bed7d711ab5bc5b0bd2f86e372455b5b892a90b40d1a3,(-0x59978735ae44cefa15627d0931e974a09c8e92e87cd3f59b58c8f24ac5a80e93)),None);
  ((0x468448a0c373376e835491646882a0887f67ba151f2f0a584a6938602f1a222e,0x17d0b1be13f62d8161dd47c786476550ab196add595967c922dd2be6faa3bda2,(-0x7c735c5e049e03498e8255e393bef0ba3559ef38de7d57c68ef6f1ed7c0027ef),0x26092b2c753cc4167785743ca1f33ed6d5760a3c3192e2360240c1b3a0a03f24,(-0x8e62e27d2cd29597d03ae45be1258ac14904020742544653244dc3dfee4f240c)),None);
  ((0x30a30be131d1087184d8cd69ec03d15ca0328370aef2c99c58a2cabb38925860,0x166788909e16ec61398dab2961c7eb3847ac35c94b45cdae9f8490f8afcfbc2e,(-0x226ae402dad0a6281cf44b62b06b8d3a1a0627a391dabcc09571cd7eefa08e83),(-0x2e2857a57cabde77a344641a4f38edc0308ea0b2be8037f1e34fa3ef9913ef8),(-0x3609bcc08d8ffbe34d0e7e86a5ccdd134b3b385f6d900ffccfc32ef1e1225ba6)),None);
  ((0x3fa456c768f6e648059518150d0d76be768334d9fa66e79a0bb1d38199daa1b3,0x633e34bf42e6e2c37a1df31b85984367d3b63be6679cd030fa2440a5b435f5df,(-0xe8f2de91737a5fcc315206c2e8b4169b628ac0af8f06735b40d414c1fbefa26),(-0x639606ca4675eb822df4b0c2120f4e155c99ea7192eac67a2411e48c296c9b2),(-0x273f4a28b18fe9a31698744bd16b62765bf9ed43c807bc1d8fb6860c30b193a4)),None);
  ((0xb80a6075eb26dfcf5764e98d2dafea6e50dda7e8fe4c5373c448ba7f71b47e8,0x6c91ba8f426a755912c88b7dc8f9d7457a0ce15b18a530f3bd97e37e4e08e272,0x2d4dbf68255d4b85f942fa5503716f5b595d8b43411ca7be24b0daa04c7d4ea7,(-0x57c83dd7ee34daf0ca60b8bc4a61dd0866ac993ca7e31f06c099ad3df8cb179a),(-0xd3863d2c47d790e774473c1c97eabb1babe47fa8ef0c7317121b15c24f0880f0)),None);
  ((0x29730489e1c13108a465119afab41c145a868b40eb7eb60bb1a1a14e59b5f2d9,0x25f0bcb5ba678c301599b2eba05bc9b765c58dba90f06e851a8fb83f2eb2b51b,0x5b0df2e5522feac537e9bc30c2d59ef5a8b6db2c4754fba6ee74e7b0efbfbcea,(-0xbbd2ec376e440ca6051319f72740d606c74258663bede2660a8f1ec69dfcc86),(-0x643ccfdd80a51c5ee2efd85d8952126c3d91b160d5a0edf2224ce5b50de5d5b4)),Some (true,(0x6d47d364661f6e412d7cf52917118da4f22a87af1b094fc4250c15d605ab1813,0x55dc4e104fc060a1081adacc0b44077fc6f0c25ee6d61cb1028f6efaa4aa86e,0xc4934142574bb80cd0507c4fd00c1f7e158a544316d2833abea8db3db5f62b5,0x20c04b3af7cef4ddfc6c883062444524f4f3e663964090d5ec6da8aef45e97a9,(-0x58ede763fafe8d95d421076d0e997b528bfd2548a6c4589f92b870d14c27c8d0),(-0x104ee2e31cfbd9a3d7e0272834de44cc877c24192999bb89ebd6080f0d1e14be))));
  ((0x537f3bb0b9794fa1eb06259328a3e6dd71cdb8c1561d6d44c1b89838a988c549,0x51a7947ecf49ae54f6dbd4c2320b083adf19f71d434256e3178c9968232cff95,(-0x5d12e442043a888beb3cb2df349b93554ecf69897acc84944d21e4c597dc36b2),0x2cbf6736d4454ebd983362fcb4b5827a0101772f76513c677e163fae8a9f4b7d,(-0x923eadaab9e26c9530107f13c668d620d5ec179ca081b575d181263aed5e233c)),None);
  ((0x60ffa6c622060170cc0a9116550f0ce828bfedf8fb3df956edfa5da5b1299624,0x2b030129342ad64944ad5a1adbb75799af86140c140d62b13ea94f3c0e257311,(-0x2608c8b198b5d18b7d92cba4ba8ae48c48137c29233a4c498cffdb6b5225afa),(-0x26b25163550a85b69a047cf523d3db680577d62fc9d799d46dd87ba0a85ddb5a),(-0x88a2b2b41b3f87d5cfbf1ba02ba2306dc5ac2548c703f37e8067ddb44257afaa)),Some (true,(0x72ae998b572929f5fd20ba2adfd10c7afbc9bbe9d0d93cf8cfa51130afe990f6,0x1a17d98da7bd9ac5fb755c2cf8fb2b36735a9264b9ef1043ad4d065381dc693e,0x209828e5b0cc1a6106a0d38edae90ca7070a89d533ae8c788317578ed812944d,0x154868d9d26d30e7dc3366f791e8c8f6b3f7f509a6e1102995f0dc363a136697,(-0xb1bba178042a5fe7e775057ceb378a612d6c5bf57dfd98c331fb9a89f0bc051e),0x103f410911be9276bab4de0ff56ee7593932afaf43b0bbbb3586bbb9a797c11c)));
  ((0x306ad5575ae1e840c8d3df2438a96bd29617e302bf0cb269412f64c0b859c3e0,0x70bc44e7a355558547bffef8b575aa3b8b9aa81ae3c89c30c6b22103079919ac,(-0x616e3ad73175c62ed91b89221e724a329db8baafa5c0f7ed369abc1604a9071b),(-0x333984169a9304e23c1184906a41aa1fa6c4973bb06198f4275a94a647b7628),(-0xd17b990bf22a65c88094cf27fbe49db057862d4a1d5b9a133b627606c64a4cf4)),None);
  ((0x5e96c92c3291ac013f5b1dce022923a396d3389f6ada584d36a9d29f70da2ad3,0x6666666666666666666666666666666666666666666666666666666666666658,0x50fa1453aaeff6a091da82284c2f95bfa5ba1dc50a200c591829042addc4a1cc,(-0x34fa889feb29381885bc1785c0c982cc3c20271eb1501a084c844860b28607b4),(-0x9894df6d61f1217b8741dae1478f9af1c714354531b9eedbf413e413a40dfbc0)),None)] = true.
Proof. vm_cast_no_check (eq_refl true). Qed.
Lemma edB_order : emul (Z.to_nat r255Order) edBP = O.
Proof. exact (ed_cert_ok r255Field edw_d edw_ok 0x8000000000000000000000000000000000000000000000000000000000000000 0x13 (fst edB) (snd edB) edE0 eq_refl edE0_eq edB_on _ _ edB_chain). Qed.
Lemma edB_nid : edBP <> O.
Proof. intros E. apply (f_equal (fun P => fst (ev _ _ P))) in E. discriminate E. Qed.
(** ** Doubling the point of order 8 *)
Lemma edS_dbl : edAddZ r255Field edw_d edS edS = (0x547cdb7fb03e20f4d4b2ff66c2042858d0bce7f952d01b873b11e4d8b5f15f3d, 0x0).
Proof. apply (dblStep_ok _ _ edw_ok 0x8000000000000000000000000000000000000000000000000000000000000000 0x13 eq_refl _ _ _ _ 0x6c64164bdb79dd43eab29761f6713fd3dddbf489fbca56ea87cd8094ef7b5378 0xb8c6ca53430833828ae3ccb79b84131b49f76018b0d237ec266732f1c51c549 (-0x7c39ebd88d0d7e8b80b7152ebe0339ccb650bd9fe32c90d94653ebd4840009c9)); [exact edS_on|vm_cast_no_check (eq_refl true)]. Qed.
Lemma edS_dbl_on : edPointb r255Field edw_d (0x547cdb7fb03e20f4d4b2ff66c2042858d0bce7f952d01b873b11e4d8b5f15f3d, 0x0) = true.
Proof. rewrite <- edS_dbl. apply (add_b _ _ edw_ok); exact edS_on. Qed.
Lemma edS_dbl2 : edAddZ r255Field edw_d (0x547cdb7fb03e20f4d4b2ff66c2042858d0bce7f952d01b873b11e4d8b5f15f3d, 0x0) (0x547cdb7fb03e20f4d4b2ff66c2042858d0bce7f952d01b873b11e4d8b5f15f3d, 0x0) = (0, r255Field - 1).
Proof. apply (dblStep_ok _ _ edw_ok 0x8000000000000000000000000000000000000000000000000000000000000000 0x13 eq_refl _ _ _ _ (-0x37c459e2571e721678413079897a5739c506bd131e94221d4015f840cdfc3172) 0x0 (-0x37c459e2571e721678413079897a5739c506bd131e94221d4015f840cdfc3171)); [exact edS_dbl_on|vm_cast_no_check (eq_refl true)]. Qed.
Lemma edS_4 : ev _ _ (emul 4 edSP) = (0, r255Field - 1).
Proof.
  change 4%nat with (2 + 2)%nat. rewrite (mul_plus _ O add (e_assoc _ _ edw_ok) (e_id _ _ edw_ok)).
  assert (E : emul 2 edSP = add edSP edSP) by (change (add edSP (add edSP O) = add edSP edSP); rewrite (e_comm _ _ edw_ok edSP O), (e_id _ _ edw_ok); reflexivity).
  rewrite E. change (edAddZ r255Field edw_d (edAddZ r255Field edw_d edS edS) (edAddZ r255Field edw_d edS edS) = (0, r255Field - 1)). rewrite edS_dbl. exact edS_dbl2.
Qed.
Lemma edS_4_nid : emul 4 edSP <> O.
Proof. intros E. apply (f_equal (ev _ _)) in E. rewrite edS_4 in E. discriminate E. Qed.
Lemma edS_8 : emul 8 edSP = O.
Proof.
  change 8%nat with (4 + 4)%nat. rewrite (mul_plus _ O add (e_assoc _ _ edw_ok) (e_id _ _ edw_ok)). apply ept_eq.
  change (edAddZ r255Field edw_d (ev _ _ (emul 4 edSP)) (ev _ _ (emul 4 edSP)) = (0, 1)). pose proof (eok _ _ (emul 4 edSP)) as H. rewrite edS_4 in *.
  apply (dblStep_ok _ _ edw_ok 0x8000000000000000000000000000000000000000000000000000000000000000 0x13 eq_refl _ _ _ _ 0x7fffffffffffffffffffffffffffffffffffffffffffffffffffffffffffffeb 0x0 (-0x7fffffffffffffffffffffffffffffffffffffffffffffffffffffffffffffeb)); [exact H|vm_cast_no_check (eq_refl true)].
Qed.

(** ** Every point is a multiple of the sum *)
Lemma order_nat : (Z.of_nat (Z.to_nat r255Order) = r255Order)%Z.
Proof. apply Z2Nat.id. discriminate. Qed.
Lemma edw_hyps : prime (Z.of_nat (Z.to_nat r255Order)) /\ (2 < Z.to_nat r255Order)%nat.
Proof. split; [rewrite order_nat; exact prime_r255Order|]. apply Nat2Z.inj_lt. rewrite order_nat. reflexivity. Qed.
Theorem edw_cyclic : forall P, exists j, P = emul j (add edBP edSP).
Proof.
  destruct edw_hyps as [Hn Hn2].
  apply (cyclic_8n (EPt r255Field edw_d) O add (eNeg _ _ edw_ok) (e_comm _ _ edw_ok) (e_assoc _ _ edw_ok) (e_id _ _ edw_ok) (e_neg _ _ edw_ok) (e_dec _ _)
    (Z.to_nat r255Order) Hn Hn2 edBP edSP edB_nid edB_order edS_4_nid edS_8 (eCode _ _) (2 * r255Field)).
  - exact (eCode_range _ _ edw_ok).
  - exact (eCode_inj _ _ edw_ok).
  - rewrite order_nat. reflexivity.
Qed.
Theorem edw_unique : forall P, exists j, (j < 8 * Z.to_nat r255Order)%nat /\ P = emul j (add edBP edSP) /\
  forall j', (j' < 8 * Z.to_nat r255Order)%nat -> P = emul j' (add edBP edSP) -> j' = j.
Proof.
  destruct edw_hyps as [Hn Hn2]. intros P.
  apply (unique_8n (EPt r255Field edw_d) O add (eNeg _ _ edw_ok) (e_comm _ _ edw_ok) (e_assoc _ _ edw_ok) (e_id _ _ edw_ok) (e_neg _ _ edw_ok)
    (Z.to_nat r255Order) Hn Hn2 edBP edSP edB_nid edB_order edS_4_nid edS_8). apply edw_cyclic.
Qed.
